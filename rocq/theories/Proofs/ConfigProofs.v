(** Proofs about the configuration. *)
From Coq Require Import NArith ZArith List Bool Lia String.
From Coq Require Import ZifyBool ZifyNat ZifyN.
From Verif.Model Require Import Bytes Service Alist SvcTable TableJson Config Client.
From Verif.Spec Require Import TableSpec ClientSpec ConfigSpec.
From Verif.Proofs Require Import AlistFacts TableProofs TablePropsPf TableExpiry TableJsonPf ClientPropsPf2.
Import ListNotations.
Local Open Scope N_scope.
Local Open Scope list_scope.

(** ** Tables *)

Lemma add_all_run hash l : forall t, add_all hash t l = tbl_run hash t (map (fun p => TAdd (fst p) (snd p)) l).
Proof.
  induction l as [|[now s] l IH]; intros t; cbn [add_all map tbl_run tbl_step fst snd]; [reflexivity|].
  destruct (tbl_add hash now t s) as [[id t']| |]; [apply IH|reflexivity|reflexivity].
Qed.
Lemma add_static_run hash l : forall t, add_static_all hash t l = tbl_run hash t (map (fun p => TAddStatic (fst p) (snd p)) l).
Proof.
  induction l as [|[now s] l IH]; intros t; cbn [add_static_all map tbl_run tbl_step fst snd]; [reflexivity|].
  destruct (tbl_add_static hash now t s) as [[id t']| |]; [apply IH|reflexivity|reflexivity].
Qed.
Lemma run_app hash a b : forall t, tbl_run hash t (a ++ b) =
  match tbl_run hash t a with ROk t' => tbl_run hash t' b | RErr => RErr | RPanic => RPanic end.
Proof.
  induction a as [|o a IH]; intros t; cbn [app tbl_run]; [reflexivity|]. destruct (tbl_step hash t o); auto.
Qed.
Lemma scan_run hash t l now t1 : add_all hash t l = ROk t1 -> tbl_run hash t (scan_ops l now) = ROk (tbl_refresh now t1).
Proof. intros H. rewrite add_all_run in H. unfold scan_ops. rewrite run_app, H. reflexivity. Qed.

Lemma adds_add l : adds (map (fun p => TAdd (fst p) (snd p)) l) = l.
Proof. induction l as [|[a b] l IH]; cbn; [reflexivity|]. unfold adds in IH. now rewrite IH. Qed.
Lemma adds_static l : adds (map (fun p => TAddStatic (fst p) (snd p)) l) = l.
Proof. induction l as [|[a b] l IH]; cbn; [reflexivity|]. unfold adds in IH. now rewrite IH. Qed.
Lemma adds_app a b : adds (a ++ b) = adds a ++ adds b.
Proof. unfold adds. apply flat_map_app. Qed.
Lemma adds_scan l now : adds (scan_ops l now) = l.
Proof. unfold scan_ops. rewrite adds_app, adds_add. cbn. apply app_nil_r. Qed.

Lemma run_stored_from hash os t t' : consistent t -> built_ops os -> tbl_run hash t os = ROk t' ->
  forall id s, stored t' id = Some s -> stored t id = Some s \/ exists now, In (now, s) (adds os).
Proof.
  revert os t t'. apply (run_induction hash (fun t os t' =>
    forall id s, stored t' id = Some s -> stored t id = Some s \/ exists now, In (now, s) (adds os))).
  - auto.
  - intros t o t1 os t' K Hb E Hs K1 H K' IH id s Hid. rewrite adds_cons.
    destruct (IH id s Hid) as [H1|[now Hin]]; [|right; exists now; apply in_or_app; auto].
    destruct Hs as [now -> ->|now s' i e Ha He Hi ->|now s' i h st Ha Hn He Hi Hst ->].
    + rewrite stored_refresh in H1. auto.
    + rewrite (stored_replaced _ _ _ _ _ _ _ He) in H1. destruct (N.eqb id i); [|auto].
      injection H1 as <-. right. exists now. apply in_or_app. left. rewrite Ha. now left.
    + rewrite stored_extended in H1. destruct (N.eqb id i); [|auto].
      cbn in H1. injection H1 as <-. right. exists now. apply in_or_app. left. rewrite Ha. now left.
Qed.

Lemma last_added_from k l d x : last_added k l d = Some x -> d = Some x \/ exists s, In (x, s) l.
Proof.
  revert d. induction l as [|[now s] l IH]; intros d H; cbn [last_added] in H; [auto|].
  apply IH in H as [H|[s' H]]; [|right; exists s'; now right].
  destruct (ident_eq_dec (to_ident s) k); [|auto]. injection H as <-. right. exists s. now left.
Qed.

Section Good.
  Variable aprint : saddr -> bytes.
  Variable aparse : bytes -> option saddr.
  Notation good := (good aprint aparse).
  Notation good_additions := (good_additions aprint aparse).

  Lemma good_built l : good_additions l -> Forall (fun p => built (snd p)) l.
  Proof. apply Forall_impl. intros p (_ & H & _). exact H. Qed.

  Lemma run_good hash os t t' : good t -> good_additions (adds os) -> tbl_run hash t os = ROk t' -> good t'.
  Proof.
    intros (K & Hsav & Hseen) Ha H. pose proof (good_built _ Ha) as Hb.
    pose proof (run_consistent _ _ _ _ K Hb H) as K'. unfold ConfigSpec.good_additions in Ha. rewrite Forall_forall in Ha.
    split; [auto|]. split.
    - intros id s Hs Hc. destruct (run_stored_from _ _ _ _ K Hb H id s Hs) as [H0|[now Hin]]; [eauto|].
      apply Ha in Hin. apply Hin.
    - intros id x Hx.
      assert (Hex : exists s, stored t' id = Some s).
      { unfold seen in Hx. unfold stored. destruct (alookup id (t_map t')); [cbn; eauto|discriminate]. }
      destruct Hex as [s Hs].
      rewrite (run_seen _ _ _ _ K Hb H (to_ident s) id) in Hx by (exists s; auto).
      apply last_added_from in Hx as [Hx|[s' Hin]]; [eauto|]. apply Ha in Hin. apply Hin.
  Qed.

  Lemma new_good now : timestamp now -> good (table_new now).
  Proof.
    intros Hn. split; [apply table_new_consistent|]. split.
    - intros id s. unfold stored. cbn [table_new t_map alookup]. destruct (N.eqb id 0); [|discriminate].
      cbn. intros [= <-]. discriminate.
    - intros id x. unfold seen. cbn [table_new t_map alookup]. destruct (N.eqb id 0); [|discriminate].
      cbn. intros [= <-]. auto.
  Qed.

  Lemma loaded_good now t t' : timestamp now -> good t ->
    table_from_json aparse now (table_to_json aprint t) = ROk t' -> good t'.
  Proof.
    intros Hn (K & Hsav & Hseen) H.
    destruct (table_roundtrip aprint aparse now t K Hsav Hseen) as (t2 & H2 & K2 & Hst & _).
    rewrite H in H2. injection H2 as <-. split; [auto|]. split.
    - intros id s Hs Hc. destruct (Hst id) as [E _]. rewrite E in Hs. eauto.
    - intros id x Hx. destruct (N.eq_dec id 0) as [->|Hne].
      + destruct (k_control t K) as (c & Hc & Hcs & _).
        revert Hx. unfold table_from_json, table_to_json in H.
        (* the control entry is created by the loader *)
        assert (E0 : alookup 0 (t_map t') = Some (entry_new now 0 svc_control true true)).
        { cbn [field_of lit beq] in H.
          set (q := fun p : N * entry => negb (svc_is_control (n_svc (snd p)))) in H.
          destruct (load_all aprint aparse now (filter q (t_map t)) (table_new now) 0) as (t3 & Hload & _ & Hlook).
          - apply table_new_consistent.
          - apply nodup_map_filter, K.
          - apply nodup_map_filter. apply (entry_idents_nodup t K).
          - intros i e Hi. apply filter_In in Hi as [Hi Hq]. apply alookup_unique in Hi; [|apply K].
            unfold q in Hq. cbn [snd] in Hq. assert (Hnc : svc_is_control (n_svc e) = false) by now destruct (svc_is_control (n_svc e)).
            destruct (k_entry t K _ _ Hi) as (A & B & C & D).
            repeat (split; [assumption|]). split; [|split; [|split]].
            + apply (Hsav i); [|auto]. unfold stored. now rewrite Hi.
            + apply (Hseen i). unfold seen. now rewrite Hi.
            + cbn [table_new t_map alookup]. destruct (N.eqb_spec i 0) as [->|]; [|reflexivity].
              exfalso. assert (e = c) by congruence. subst c. rewrite Hcs in Hnc. discriminate.
            + cbn [table_new t_idents ilookup entry_new n_svc]. destruct (ident_eq_dec _ _) as [E|]; [|reflexivity].
              apply ident_control in E; auto. rewrite E in Hnc. discriminate.
          - assert (Et : t3 = t') by (cbn in H; congruence). subst t3. rewrite Hlook.
            rewrite alookup_filter by apply K. rewrite Hc. unfold q. cbn [snd]. rewrite Hcs. reflexivity. }
        unfold seen. rewrite E0. cbn. intros [= <-]. auto.
      + destruct (Hst id) as [_ E]. destruct (E Hne) as (_ & _ & Es & _). rewrite Es in Hx. eauto.
  Qed.
End Good.

(** ** Cells *)

Lemma set_nth_same {A} n (x : A) l : (n < List.length l)%nat -> nth_error (set_nth n x l) n = Some x.
Proof. revert n. induction l as [|a l IH]; intros [|n] H; cbn in *; try lia; [reflexivity|apply IH; lia]. Qed.
Lemma set_nth_other {A} n m (x : A) l : m <> n -> nth_error (set_nth n x l) m = nth_error l m.
Proof.
  revert n m. induction l as [|a l IH]; intros [|n] [|m] H; cbn; try reflexivity; try lia. apply IH. lia.
Qed.
Lemma set_nth_length {A} n (x : A) l : List.length (set_nth n x l) = List.length l.
Proof. revert n. induction l as [|a l IH]; intros [|n]; cbn; auto. Qed.

Lemma cfg_update_shape hash c l now c' d : cfg_update hash c l now = ROk (c', d) ->
  exists t t2, current c = Some t /\ tbl_run hash t (scan_ops l now) = ROk t2 /\ current c' = Some t2 /\
    g_cur c' = g_cur c /\ g_heap c' = set_nth (g_cur c) t2 (g_heap c) /\ g_uuid c' = g_uuid c /\ g_passwd c' = g_passwd c /\
    g_default c' = g_default c /\ g_flash c' = g_flash c /\
    (if N.eqb (t_version t) (t_version t2) && (g_flash c || N.eqb (t_vversion t) (t_vversion t2))
     then d = None /\ g_version c' = g_version c
     else g_version c' = g_version c + 1 /\ d = Some (to_persistent c' t2)).
Proof.
  unfold cfg_update, current, cell. intros H. destruct (nth_error (g_heap c) (g_cur c)) as [t|] eqn:Ec; [|discriminate].
  destruct (add_all hash t l) as [t1| |] eqn:Ea; try discriminate. cbv zeta in H.
  pose proof (scan_run _ _ _ now _ Ea) as Hrun.
  assert (Hlt : (g_cur c < List.length (g_heap c))%nat) by (apply nth_error_Some; congruence).
  destruct (N.eqb (t_version t) (t_version (tbl_refresh now t1)) && (g_flash c || N.eqb (t_vversion t) (t_vversion (tbl_refresh now t1)))) eqn:Ev;
    injection H as <- <-; exists t, (tbl_refresh now t1); cbn [with_heap g_heap g_cur g_uuid g_passwd g_default g_flash g_version];
    rewrite set_nth_same by auto; rewrite Ev; repeat split; auto.
Qed.

Lemma cfg_step_cell hash c o h : (g_cur c < List.length (g_heap c))%nat -> (h < List.length (g_heap c))%nat -> h <> g_cur c ->
  let c' := cfg_step hash c o in
  cell c' h = cell c h /\ h <> g_cur c' /\ (g_cur c' < List.length (g_heap c'))%nat /\ (h < List.length (g_heap c'))%nat.
Proof.
  intros Hc Hh Hne. destruct o as [l now|]; cbn [cfg_step].
  - destruct (cfg_update hash c l now) as [[c' d]| |] eqn:E; cbv zeta; auto.
    apply cfg_update_shape in E. destruct E as (t & t2 & _ & _ & _ & Hcur & Hheap & _).
    unfold cell. rewrite Hheap, Hcur, set_nth_length, set_nth_other by auto. auto.
  - cbn [cfg_reset fst with_heap]. unfold cell. cbn [with_heap g_heap g_cur]. rewrite app_length. cbn [List.length].
    rewrite nth_error_app1 by auto. repeat split; lia.
Qed.

Lemma cfg_run_cell hash os : forall c h, (g_cur c < List.length (g_heap c))%nat -> (h < List.length (g_heap c))%nat -> h <> g_cur c ->
  cell (cfg_run hash c os) h = cell c h.
Proof.
  unfold cfg_run. induction os as [|o os IH]; intros c h Hc Hh Hne; cbn [fold_left]; [reflexivity|].
  destruct (cfg_step_cell hash c o h Hc Hh Hne) as (A & B & C & D). rewrite IH by auto. exact A.
Qed.

(** ** C30 *)

Lemma captured_after_reset hash c t os : current c = Some t ->
  cell (cfg_run hash (fst (cfg_reset c)) os) (get_service_table c) = Some t.
Proof.
  intros H. unfold current, get_service_table in *.
  assert (Hlt : (g_cur c < List.length (g_heap c))%nat) by (apply nth_error_Some; unfold cell in H; congruence).
  rewrite cfg_run_cell; unfold cell; cbn [cfg_reset fst with_heap g_heap g_cur]; rewrite ?app_length; cbn [List.length]; try lia.
  rewrite nth_error_app1 by auto. exact H.
Qed.

Lemma reset_silent hash c t k (l : list (list cop * kev)) :
  current c = Some t -> c_version (k_ctx k) = t_vversion t ->
  (forall os e, In (os, e) l -> reads (cfg_run hash (fst (cfg_reset c)) os) (get_service_table c) e) ->
  existsb is_update (snd (conn_run k (map snd l))) = false.
Proof.
  intros Hc Hv Hl. apply (stale_run (view_of t)); [exact Hv|].
  apply Forall_map, Forall_forall. intros [os e] Hi. cbn [snd].
  destruct (Hl os e Hi) as (t' & Ht & Hs). rewrite (captured_after_reset hash c t os Hc) in Ht. injection Ht as <-. exact Hs.
Qed.

(** ** C39 *)

Lemma beq_refl a : beq a a = true.
Proof. induction a as [|x a IH]; cbn; [reflexivity|]. now rewrite N.eqb_refl. Qed.

Section Identity.
  Variable hash : ident -> N.
  Variable aprint : saddr -> bytes.
  Variable aparse : bytes -> option saddr.
  Variable uprint : N -> bytes.
  Variable uparse : bytes -> option N.
  Hypothesis uuid_text : forall u, uparse (uprint u) = Some u.

  Notation from_json := (pconfig_from_json aparse uparse).
  Notation to_json := (pconfig_to_json aprint uprint).
  Notation step := (world_step hash aprint aparse uprint uparse).
  Notation run := (world_run hash aprint aparse uprint uparse).
  Notation load := (load_file aparse uparse).

  Definition ident_of (p : pconfig) : N * N := (p_uuid p, p_passwd p).

  Lemma from_to now p : from_json now (to_json p) =
    match table_from_json aparse now (table_to_json aprint (p_table p)) with
    | ROk t => ROk {| p_uuid := p_uuid p; p_passwd := p_passwd p; p_version := p_version p; p_table := t |}
    | RErr => RErr
    | RPanic => RPanic
    end.
  Proof.
    unfold pconfig_from_json, pconfig_to_json.
    repeat match goal with |- context [field_of (lit ?a) ?l] =>
      let r := eval cbv [field_of lit beq N.eqb Pos.eqb andb Ascii.N_of_ascii Ascii.N_of_digits N.add N.mul Pos.add Pos.mul] in (field_of (lit a) l) in
      change (field_of (lit a) l) with r end.
    cbn [bind as_str]. unfold as_usize.
    replace (0 <=? Z.of_N (p_version p))%Z with true by lia. rewrite !uuid_text, N2Z.id. destruct (table_from_json aparse now (table_to_json aprint (p_table p))); reflexivity.
  Qed.

  (** A file that can only give identity [i]; a file that does. *)
  Definition only (i : N * N) (f : file) : Prop := forall now p, load now f = ROk p -> ident_of p = i.
  Definition holds (i : N * N) (f : file) : Prop := forall now, exists p, load now f = ROk p /\ ident_of p = i.

  Lemma write_only i f p w : only i f -> ident_of p = i -> only i (write_file aprint uprint f p w).
  Proof.
    intros Hf Hp. destruct w; cbn [write_file]; [|auto|intros now q; discriminate].
    intros now q H. cbn [load_file] in H. rewrite from_to in H.
    destruct (table_from_json aparse now (table_to_json aprint (p_table p))); try discriminate. injection H as <-. exact Hp.
  Qed.

  Lemma skeleton_holds now p : holds (ident_of p) (Some (to_json (to_skeleton now p))).
  Proof.
    intros now'. cbn [load_file]. rewrite from_to. cbn. eexists. split; reflexivity.
  Qed.

  Definition safe (i : N * N) (s : world) : Prop :=
    only i (w_config s) /\ holds i (w_skel s) /\ (forall c, w_app s = Some c -> (g_uuid c, g_passwd c) = i).

  Lemma load_configuration_safe now i cfg skel fresh wsk p skel' :
    only i cfg -> holds i skel -> load_configuration aprint aparse uprint uparse now true cfg skel fresh wsk = ROk (p, skel') ->
    ident_of p = i /\ skel' = skel.
  Proof.
    intros Ho Hh H. unfold load_configuration in H. destruct (Hh now) as (q & Hq & Hqi). rewrite Hq in H.
    destruct (load now cfg) as [r| |] eqn:E; try discriminate; injection H as <- <-; (split; [|reflexivity]); auto.
    apply (Ho now). exact E.
  Qed.

  Lemma build_ident p services flash c : build_config hash p services flash = ROk c -> (g_uuid c, g_passwd c) = ident_of p.
  Proof.
    unfold build_config. destruct (add_static_all _ _ _); try discriminate. intros [= <-]. reflexivity.
  Qed.

  Lemma step_safe flash i s e s' o : safe i s -> step true flash s e = (s', o) ->
    safe i s' /\ (forall j, o = Some j -> j = i).
  Proof.
    intros (Hc & Hs & Ha) H. unfold world_step in H.
    destruct e as [fresh now wsk stop services w|services now w|w|].
    - destruct (w_app s) as [c|] eqn:Ea.
      { injection H as <- <-. rewrite <- Ea in Ha. split; [|discriminate]. unfold safe. auto. }
      destruct (load_configuration aprint aparse uprint uparse now true (w_config s) (w_skel s) fresh wsk) as [[p skel']| |] eqn:El.
      2,3: injection H as <- <-; split; [|discriminate]; unfold safe; rewrite Ea; auto.
      destruct (load_configuration_safe _ _ _ _ _ _ _ _ Hc Hs El) as [Hp ->]. cbv zeta in H.
      assert (Hsafe1 : safe i {| w_config := w_config s; w_skel := w_skel s; w_app := None |}).
      { unfold safe. cbn. auto. }
      destruct stop; [injection H as <- <-; split; [auto|discriminate]|].
      destruct (build_config hash p services flash) as [c| |] eqn:Eb; [|injection H as <- <-; split; [auto|discriminate]..].
      apply build_ident in Eb.
      assert (Hw : forall t, only i (write_file aprint uprint (w_config s) (to_persistent c t) w)).
      { intros t. apply write_only; [auto|]. transitivity (g_uuid c, g_passwd c); [reflexivity|congruence]. }
      destruct w; injection H as <- <-.
      + split; [unfold safe; cbn [w_config w_skel w_app]|intros j [= <-]; congruence].
        split; [apply (Hw (nth O (g_heap c) (table_new now)))|]. split; [auto|]. intros c0 [= <-]. congruence.
      + split; [|discriminate]. unfold safe; cbn [w_config w_skel w_app]. split; [apply (Hw (nth O (g_heap c) (table_new now)))|]. auto.
      + split; [|discriminate]. unfold safe; cbn [w_config w_skel w_app]. split; [apply (Hw (nth O (g_heap c) (table_new now)))|]. auto.
    - destruct (w_app s) as [c|] eqn:Ea.
      2:{ injection H as <- <-. split; [|discriminate]. unfold safe. rewrite Ea. auto. }
      destruct (cfg_update hash c services now) as [[c' [p|]]| |] eqn:E.
      + apply cfg_update_shape in E. destruct E as (t & t2 & _ & _ & _ & _ & _ & Hu & Hp & _ & _ & Hd).
        injection H as <- <-. split; [|discriminate]. unfold safe; cbn [w_config w_skel w_app].
        destruct (_ && _); [destruct Hd; discriminate|]. destruct Hd as [_ [= ->]].
        assert (Hi : (g_uuid c', g_passwd c') = i) by (rewrite Hu, Hp; auto).
        split; [apply write_only; auto|]. split; [auto|]. intros c0 [= <-]. auto.
      + apply cfg_update_shape in E. destruct E as (t & t2 & _ & _ & _ & _ & _ & Hu & Hp & _).
        injection H as <- <-. split; [|discriminate]. unfold safe; cbn [w_config w_skel w_app].
        split; [auto|]. split; [auto|]. intros c0 [= <-]. rewrite Hu, Hp. auto.
      + injection H as <- <-. split; [|discriminate]. unfold safe; cbn. split; [auto|]. split; [auto|]. discriminate.
      + injection H as <- <-. split; [|discriminate]. unfold safe; cbn. split; [auto|]. split; [auto|]. discriminate.
    - destruct (w_app s) as [c|] eqn:Ea.
      + cbn [cfg_reset] in H. injection H as <- <-. split; [|discriminate]. unfold safe; cbn [w_config w_skel w_app].
        split; [|split; [auto|]].
        * apply write_only; [auto|]. apply (Ha c eq_refl).
        * intros c0 [= <-]. cbn. auto.
      + injection H as <- <-. split; [|discriminate]. unfold safe. rewrite Ea. auto.
    - injection H as <- <-. split; [|discriminate]. unfold safe; cbn. split; [auto|]. split; [auto|]. discriminate.
  Qed.

  Lemma run_safe flash i es : forall s, safe i s -> Forall (eq i) (snd (run true flash s es)).
  Proof.
    induction es as [|e es IH]; intros s Hs; cbn [world_run]; [constructor|].
    destruct (step true flash s e) as [s1 o] eqn:E. destruct (step_safe _ _ _ _ _ _ Hs E) as [Hs1 Ho].
    specialize (IH s1 Hs1). destruct (run true flash s1 es) as [s2 l]. cbn [snd] in *.
    destruct o as [j|]; [|auto]. constructor; [|auto]. symmetry. auto.
  Qed.

  Lemma skeleton_keeps_identity flash fresh now stop services w es :
    Forall (eq fresh) (snd (run true flash blank (WStart fresh now Wrote stop services w :: es))).
  Proof.
    cbn [world_run]. destruct (step true flash blank (WStart fresh now Wrote stop services w)) as [s1 o] eqn:E.
    assert (H : safe fresh s1 /\ (forall j, o = Some j -> j = fresh)).
    { unfold world_step, blank in E. cbn [w_app w_config w_skel] in E.
      unfold load_configuration in E. cbn [load_file] in E. cbv zeta in E.
      set (p := {| p_uuid := fst fresh; p_passwd := snd fresh; p_version := 0; p_table := table_new now |}) in *.
      assert (Hp : ident_of p = fresh) by (destruct fresh; reflexivity).
      assert (Hskel : holds fresh (write_file aprint uprint None (to_skeleton now p) Wrote)).
      { cbn [write_file]. rewrite <- Hp. apply skeleton_holds. }
      assert (Hnone : only fresh None) by (intros n q; discriminate).
      destruct stop.
      { injection E as <- <-. split; [|discriminate]. unfold safe. cbn [w_config w_skel w_app]. split; [auto|]. split; [auto|]. discriminate. }
      destruct (build_config hash p services flash) as [c| |] eqn:Eb.
      2,3: injection E as <- <-; (split; [|discriminate]); unfold safe; cbn [w_config w_skel w_app]; (split; [auto|]); (split; [auto|]); discriminate.
      apply build_ident in Eb. rewrite Hp in Eb.
      assert (Hw : forall t, only fresh (write_file aprint uprint None (to_persistent c t) w)).
      { intros t. apply write_only; auto. }
      destruct w; injection E as <- <-.
      - split; [unfold safe; cbn [w_config w_skel w_app]|intros j [= <-]; congruence].
        split; [apply (Hw (nth O (g_heap c) (table_new now)))|]. split; [auto|]. intros c0 [= <-]. auto.
      - split; [|discriminate]. unfold safe; cbn [w_config w_skel w_app]. split; [apply (Hw (nth O (g_heap c) (table_new now)))|]. split; [auto|]. discriminate.
      - split; [|discriminate]. unfold safe; cbn [w_config w_skel w_app]. split; [apply (Hw (nth O (g_heap c) (table_new now)))|]. split; [auto|]. discriminate. }
    destruct H as [Hs Ho]. pose proof (run_safe flash fresh es s1 Hs) as Hr.
    destruct (run true flash s1 es) as [s2 l]. cbn [snd] in *.
    destruct o as [j|]; [|auto]. constructor; [|auto]. symmetry. auto.
  Qed.

  (** Without torn writes. *)
  Notation good := (good aprint aparse).
  Notation good_config := (good_config aprint aparse).
  Notation good_additions := (good_additions aprint aparse).

  Definition solid (i : N * N) (f : file) : Prop :=
    exists p, f = Some (to_json p) /\ ident_of p = i /\ good (p_table p).

  Lemma solid_load i f now : solid i f -> timestamp now -> exists p, load now f = ROk p /\ ident_of p = i /\ good (p_table p).
  Proof.
    intros (p & -> & Hi & Hg) Hn. cbn [load_file]. rewrite from_to.
    pose proof Hg as (K & Hsav & Hseen).
    destruct (table_roundtrip aprint aparse now (p_table p) K Hsav Hseen) as (t2 & H2 & _). rewrite H2.
    eexists. split; [reflexivity|]. split; [exact Hi|]. cbn [p_table]. eapply loaded_good; eauto.
  Qed.

  Lemma current_good c t : good_config c -> current c = Some t -> good t.
  Proof.
    intros (Hh & _) H. unfold current, cell in H. rewrite Forall_forall in Hh. apply Hh. eapply nth_error_In; eauto.
  Qed.

  Lemma set_nth_forall {A} (P : A -> Prop) n x l : Forall P l -> P x -> Forall P (set_nth n x l).
  Proof.
    revert n. induction l as [|a l IH]; intros [|n] Hl Hx; cbn; auto; inversion Hl; subst; constructor; auto.
  Qed.

  Lemma update_good c l now c' d : good_config c -> good_additions l -> cfg_update hash c l now = ROk (c', d) ->
    good_config c' /\ (forall p, d = Some p -> good (p_table p) /\ ident_of p = (g_uuid c, g_passwd c)) /\
    (g_uuid c', g_passwd c') = (g_uuid c, g_passwd c).
  Proof.
    intros Hg Hl H. apply cfg_update_shape in H.
    destruct H as (t & t2 & Ht & Hrun & Ht2 & Hcur & Hheap & Hu & Hp & Hd & _ & Hdoc).
    pose proof (current_good c t Hg Ht) as Hgt.
    assert (Hg2 : good t2). { eapply run_good; [exact Hgt| |exact Hrun]. now rewrite adds_scan. }
    destruct Hg as (Hh & Hdef & Hlt). split; [|split].
    - unfold ConfigSpec.good_config. rewrite Hcur, Hheap, Hd, set_nth_length. split; [|auto]. now apply set_nth_forall.
    - intros p ->. destruct (_ && _); [destruct Hdoc; discriminate|]. destruct Hdoc as [_ [= ->]].
      split; [exact Hg2|]. transitivity (g_uuid c', g_passwd c'); [reflexivity|congruence].
    - now rewrite Hu, Hp.
  Qed.

  Lemma build_good p services flash c : good (p_table p) -> good_additions services ->
    build_config hash p services flash = ROk c -> good_config c /\ forall d, good (nth O (g_heap c) d).
  Proof.
    unfold build_config. rewrite add_static_run. intros Hg Ha.
    destruct (tbl_run _ _ _) as [t| |] eqn:E; try discriminate. intros [= <-].
    assert (Hgt : good t). { eapply run_good; [exact Hg| |exact E]. now rewrite adds_static. }
    unfold ConfigSpec.good_config. cbn [g_heap g_default g_cur nth List.length].
    split; [split; [constructor; [exact Hgt|constructor]|split; [exact Hgt|lia]]|intros _; exact Hgt].
  Qed.

  Definition firm (i : N * N) (s : world) : Prop :=
    solid i (w_config s) /\ (forall c, w_app s = Some c -> (g_uuid c, g_passwd c) = i /\ good_config c).

  Lemma solid_write i f p w : solid i f -> ident_of p = i -> good (p_table p) -> w <> Torn -> solid i (write_file aprint uprint f p w).
  Proof. intros Hf Hi Hg Hw. destruct w; cbn [write_file]; [exists p; auto|auto|contradiction]. Qed.

  Lemma load_configuration_firm now use i cfg skel fresh wsk p skel' :
    solid i cfg -> timestamp now -> load_configuration aprint aparse uprint uparse now use cfg skel fresh wsk = ROk (p, skel') ->
    ident_of p = i /\ good (p_table p).
  Proof.
    intros Hs Hn H. unfold load_configuration in H. destruct (solid_load i cfg now Hs Hn) as (q & Hq & Hqi & Hqg). rewrite Hq in H.
    destruct (if use then load now skel else RErr); try discriminate; injection H as <- <-; auto.
  Qed.

  Lemma step_firm use flash i s e s' o : firm i s -> good_event aprint aparse e -> untorn e -> step use flash s e = (s', o) ->
    firm i s' /\ (forall j, o = Some j -> j = i).
  Proof.
    intros (Hc & Ha) Hge Hut H. unfold world_step in H.
    destruct e as [fresh now wsk stop services w|services now w|w|]; cbn [good_event untorn] in *.
    - destruct (w_app s) as [c|] eqn:Ea.
      { injection H as <- <-. rewrite <- Ea in Ha. split; [|discriminate]. unfold firm. auto. }
      destruct (load_configuration aprint aparse uprint uparse now use (w_config s) (w_skel s) fresh wsk) as [[p skel']| |] eqn:El.
      2,3: injection H as <- <-; split; [|discriminate]; unfold firm; rewrite Ea; auto.
      destruct Hge as [Hn Hadd].
      destruct (load_configuration_firm _ _ _ _ _ _ _ _ _ Hc Hn El) as [Hp Hgp]. cbv zeta in H.
      assert (Hsafe1 : firm i {| w_config := w_config s; w_skel := skel'; w_app := None |}).
      { unfold firm. cbn. split; [auto|discriminate]. }
      destruct stop; [injection H as <- <-; split; [auto|discriminate]|].
      destruct (build_config hash p services flash) as [c| |] eqn:Eb; [|injection H as <- <-; split; [auto|discriminate]..].
      destruct (build_good _ _ _ _ Hgp Hadd Eb) as [Hgc Hgt].
      apply build_ident in Eb.
      assert (Hw : solid i (write_file aprint uprint (w_config s) (to_persistent c (nth O (g_heap c) (table_new now))) w)).
      { apply solid_write; auto; [transitivity (g_uuid c, g_passwd c); [reflexivity|congruence]|apply Hgt]. }
      destruct w; injection H as <- <-.
      + split; [unfold firm; cbn [w_config w_skel w_app]|intros j [= <-]; congruence].
        split; [apply Hw|]. intros c0 [= <-]. split; [congruence|auto].
      + split; [|discriminate]. unfold firm; cbn [w_config w_skel w_app]. split; [apply Hw|discriminate].
      + contradiction.
    - destruct (w_app s) as [c|] eqn:Ea.
      2:{ injection H as <- <-. split; [|discriminate]. unfold firm. rewrite Ea. auto. }
      destruct (Ha c eq_refl) as [Hi Hgc].
      destruct (cfg_update hash c services now) as [[c' [p|]]| |] eqn:E.
      + destruct (update_good _ _ _ _ _ Hgc Hge E) as (Hgc' & Hd & Hi').
        injection H as <- <-. split; [|discriminate]. unfold firm; cbn [w_config w_skel w_app].
        destruct (Hd p eq_refl) as [Hgp Hpi].
        split; [apply solid_write; auto; congruence|]. intros c0 [= <-]. split; [congruence|auto].
      + destruct (update_good _ _ _ _ _ Hgc Hge E) as (Hgc' & _ & Hi').
        injection H as <- <-. split; [|discriminate]. unfold firm; cbn [w_config w_skel w_app].
        split; [auto|]. intros c0 [= <-]. split; [congruence|auto].
      + injection H as <- <-. split; [|discriminate]. unfold firm; cbn. split; [auto|discriminate].
      + injection H as <- <-. split; [|discriminate]. unfold firm; cbn. split; [auto|discriminate].
    - destruct (w_app s) as [c|] eqn:Ea.
      + destruct (Ha c eq_refl) as [Hi Hgc]. cbn [cfg_reset] in H. injection H as <- <-. split; [|discriminate].
        unfold firm; cbn [w_config w_skel w_app]. destruct Hgc as (Hh & Hdef & Hlt). split.
        * apply solid_write; auto.
        * intros c0 [= <-]. split; [exact Hi|]. unfold ConfigSpec.good_config. cbn [with_heap g_heap g_default g_cur].
          split; [apply Forall_app; auto|]. split; [auto|]. rewrite app_length. cbn [List.length]. lia.
      + injection H as <- <-. split; [|discriminate]. unfold firm. rewrite Ea. auto.
    - injection H as <- <-. split; [|discriminate]. unfold firm; cbn. split; [auto|discriminate].
  Qed.

  Lemma run_firm use flash i es : forall s, firm i s -> Forall (good_event aprint aparse) es -> Forall untorn es ->
    Forall (eq i) (snd (run use flash s es)).
  Proof.
    induction es as [|e es IH]; intros s Hs Hg Hu; cbn [world_run]; [constructor|].
    inversion Hg; subst. inversion Hu; subst.
    destruct (step use flash s e) as [s1 o] eqn:E. destruct (step_firm _ _ _ _ _ _ _ Hs H1 H3 E) as [Hs1 Ho].
    specialize (IH s1 Hs1 H2 H4). destruct (run use flash s1 es) as [s2 l]. cbn [snd] in *.
    destruct o as [j|]; [|auto]. constructor; [|auto]. symmetry. auto.
  Qed.

  (** Until the first successful start nothing is running; the files hold loadable documents or nothing. *)
  Definition fine (f : file) : Prop := f = None \/ exists i, solid i f.
  Definition early (s : world) : Prop := w_app s = None /\ fine (w_config s) /\ fine (w_skel s).

  Lemma fine_load now f p : fine f -> timestamp now -> load now f = ROk p -> good (p_table p).
  Proof.
    intros [->|[i Hs]] Hn H; [discriminate|]. destruct (solid_load i f now Hs Hn) as (q & Hq & _ & Hg). congruence.
  Qed.

  Lemma fine_write f p w : fine f -> good (p_table p) -> fine (write_file aprint uprint f p w).
  Proof.
    intros Hf Hg. destruct w; cbn [write_file]; [right; exists (ident_of p), p; auto|auto|now left].
  Qed.

  Lemma step_early use flash s e s' o : early s -> good_event aprint aparse e -> step use flash s e = (s', o) ->
    match o with Some i => firm i s' | None => early s' end.
  Proof.
    intros (Ha & Hc & Hs) Hge H. unfold world_step in H. rewrite Ha in H.
    destruct e as [fresh now wsk stop services w|services now w|w|]; cbn [good_event] in *;
      try (injection H as <- <-; unfold early; auto; fail).
    - destruct Hge as [Hn Hadd].
      destruct (load_configuration aprint aparse uprint uparse now use (w_config s) (w_skel s) fresh wsk) as [[p skel']| |] eqn:El.
      2,3: injection H as <- <-; unfold early; auto.
      assert (Hp : good (p_table p) /\ fine skel').
      { unfold load_configuration in El.
        assert (Hnew : good (table_new now)) by now apply new_good.
        destruct use.
        - destruct (load now (w_skel s)) as [q| |] eqn:Es; try discriminate.
          + assert (good (p_table q)) by (eapply fine_load; [exact Hs|exact Hn|exact Es]).
            destruct (load now (w_config s)) as [r| |] eqn:Ec; try discriminate; injection El as <- <-; split; auto.
            eapply fine_load; [exact Hc|exact Hn|exact Ec].
          + destruct (load now (w_config s)) as [r| |] eqn:Ec; try discriminate; injection El as <- <-.
            * split; [eapply fine_load; [exact Hc|exact Hn|exact Ec]|]. apply fine_write; auto.
            * split; [exact Hnew|]. apply fine_write; auto.
        - destruct (load now (w_config s)) as [r| |] eqn:Ec; try discriminate; injection El as <- <-; split; auto.
          eapply fine_load; [exact Hc|exact Hn|exact Ec]. }
      destruct Hp as [Hgp Hfs]. cbv zeta in H.
      assert (He1 : early {| w_config := w_config s; w_skel := skel'; w_app := None |}) by (unfold early; auto).
      destruct stop; [injection H as <- <-; auto|].
      destruct (build_config hash p services flash) as [c| |] eqn:Eb; [|injection H as <- <-; auto..].
      destruct (build_good _ _ _ _ Hgp Hadd Eb) as [Hgc Hgt].
      destruct w; injection H as <- <-.
      + unfold firm. cbn [w_config w_app write_file]. split; [|intros c0 [= <-]; auto].
        exists (to_persistent c (nth O (g_heap c) (table_new now))).
        split; [reflexivity|]. split; [reflexivity|]. apply Hgt.
      + unfold early. cbn [w_config w_skel w_app write_file]. auto.
      + unfold early. cbn [w_config w_skel w_app write_file]. split; [auto|]. split; [now left|auto].
  Qed.

  Lemma run_early use flash es : forall s, early s -> Forall (good_event aprint aparse) es -> Forall untorn es ->
    forall a b, In a (snd (run use flash s es)) -> In b (snd (run use flash s es)) -> a = b.
  Proof.
    induction es as [|e es IH]; intros s Hs Hg Hu a b; cbn [world_run]; [contradiction|].
    inversion Hg; subst. inversion Hu; subst.
    destruct (step use flash s e) as [s1 o] eqn:E. pose proof (step_early _ _ _ _ _ _ Hs H1 E) as Hn.
    destruct o as [j|].
    - pose proof (run_firm use flash j es s1 Hn H2 H4) as Hf. destruct (run use flash s1 es) as [s2 l]. cbn [snd] in *.
      rewrite Forall_forall in Hf. intros [<-|Hx] [<-|Hy]; auto; [symmetry; apply Hf; auto| ].
      rewrite <- (Hf _ Hx). apply Hf. auto.
    - specialize (IH s1 Hn H2 H4 a b). destruct (run use flash s1 es) as [s2 l]. cbn [snd] in *. auto.
  Qed.

  Lemma untorn_identity use flash es : Forall (good_event aprint aparse) es -> Forall untorn es ->
    forall a b, In a (snd (run use flash blank es)) -> In b (snd (run use flash blank es)) -> a = b.
  Proof. apply run_early. unfold early, blank. cbn. repeat split; now left. Qed.
End Identity.

(** ** C40 *)

Lemma scan_written aprint aparse hash c l now c' d t :
  good_config aprint aparse c -> good_additions aprint aparse l -> current c = Some t ->
  stored_changes hash t (scan_ops l now) < 2 ^ 32 -> shown_changes hash t (scan_ops l now) < 2 ^ 32 ->
  cfg_update hash c l now = ROk (c', d) ->
  exists t2, current c' = Some t2 /\ tbl_run hash t (scan_ops l now) = ROk t2 /\
    (d = None <-> stored_changes hash t (scan_ops l now) = 0 /\ (g_flash c = true \/ shown_changes hash t (scan_ops l now) = 0)) /\
    (forall p, d = Some p -> p = {| p_uuid := g_uuid c; p_passwd := g_passwd c; p_version := g_version c + 1; p_table := t2 |}) /\
    g_version c' = (match d with Some _ => g_version c + 1 | None => g_version c end).
Proof.
  intros Hg Ha Ht Hs1 Hs2 H. apply cfg_update_shape in H.
  destruct H as (t0 & t2 & Ht0 & Hrun & Ht2 & Hcur & Hheap & Hu & Hp & Hd & Hfl & Hdoc).
  assert (t0 = t) by congruence. subst t0. exists t2. split; [auto|]. split; [auto|].
  pose proof (current_good _ _ c t Hg Ht) as (K & _).
  assert (Hb : built_ops (scan_ops l now)). { unfold built_ops. rewrite adds_scan. eapply good_built; eauto. }
  destruct (run_versions hash _ t t2 K Hb Hrun) as [V1 V2]. pose proof (k_versions t K) as [B1 B2].
  assert (E1 : t_version t = t_version t2 <-> stored_changes hash t (scan_ops l now) = 0).
  { rewrite V1. change (2 ^ 32) with 4294967296 in *. clear - B1 Hs1. split; intros E; [|rewrite E, N.add_0_r, N.mod_small; auto].
    destruct (N.lt_ge_cases (t_version t + stored_changes hash t (scan_ops l now)) 4294967296) as [Hl|Hl].
    - rewrite N.mod_small in E by auto. lia.
    - rewrite (N.mod_eq _ 4294967296) in E by discriminate.
      replace ((t_version t + stored_changes hash t (scan_ops l now)) / 4294967296) with 1 in E.
      + lia.
      + apply (N.div_unique _ _ 1 (t_version t + stored_changes hash t (scan_ops l now) - 4294967296)); lia. }
  assert (E2 : t_vversion t = t_vversion t2 <-> shown_changes hash t (scan_ops l now) = 0).
  { rewrite V2. change (2 ^ 32) with 4294967296 in *. clear - B2 Hs2. split; intros E; [|rewrite E, N.add_0_r, N.mod_small; auto].
    destruct (N.lt_ge_cases (t_vversion t + shown_changes hash t (scan_ops l now)) 4294967296) as [Hl|Hl].
    - rewrite N.mod_small in E by auto. lia.
    - rewrite (N.mod_eq _ 4294967296) in E by discriminate.
      replace ((t_vversion t + shown_changes hash t (scan_ops l now)) / 4294967296) with 1 in E.
      + lia.
      + apply (N.div_unique _ _ 1 (t_vversion t + shown_changes hash t (scan_ops l now) - 4294967296)); lia. }
  destruct (N.eqb (t_version t) (t_version t2) && (g_flash c || N.eqb (t_vversion t) (t_vversion t2))) eqn:Ev.
  - destruct Hdoc as [-> Hv]. split; [|split; [discriminate|auto]]. split; [|auto]. intros _.
    apply andb_true_iff in Ev as [Ev1 Ev2]. apply N.eqb_eq in Ev1. split; [now apply E1|].
    apply orb_true_iff in Ev2 as [Ev2|Ev2]; [auto|right]. apply N.eqb_eq in Ev2. now apply E2.
  - destruct Hdoc as [Hv ->]. split; [|split; [|auto]].
    + split; [discriminate|]. intros [Z1 Z2]. exfalso. apply E1 in Z1. rewrite Z1, N.eqb_refl in Ev.
      destruct Z2 as [Z2|Z2]; [rewrite Z2 in Ev; discriminate|]. apply E2 in Z2. rewrite Z2, N.eqb_refl, orb_true_r in Ev. discriminate.
    + intros p [= <-]. unfold to_persistent. rewrite Hu, Hp, Hv. reflexivity.
Qed.
