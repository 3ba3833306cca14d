(** Properties of service tables: stable IDs, versions, expiry. *)
From Coq Require Import NArith ZArith List Bool Lia.
From Coq Require Import ZifyBool ZifyNat ZifyN.
From Verif.Model Require Import Bytes Service Alist SvcTable.
From Verif.Spec Require Import TableSpec.
From Verif.Proofs Require Import AlistFacts TableProofs.
Import ListNotations.
Local Open Scope N_scope.
Ltac Zify.zify_post_hook ::= Z.div_mod_to_equations.

(** ** The shape of one operation *)

(** The table after updating an entry. *)
Definition replaced (now : Z) (t : table) (id : N) (e : entry) (s : service) (en : bool) : table :=
  let e' := entry_update now e s en in
  let c := if service_eq_dec (n_svc e) s then false else true in
  with_versions (with_map t (ainsert id e' (t_map t))) (if c then bump (t_version t) else t_version t)
    (if xorb (is_visible e) (is_visible e') || (is_visible e' && c) then bump (t_vversion t) else t_vversion t).

Lemma update_shape hash now t s st id t' :
  consistent t -> built s -> tbl_update hash now t s st true = ROk (id, t') ->
  (exists e, alookup id (t_map t) = Some e /\ to_ident (n_svc e) = to_ident s /\ t' = replaced now t id e s true) \/
  (ilookup (to_ident s) (t_idents t) = None /\ alookup id (t_map t) = None /\ id < 2 ^ 16 /\
   exists h, t' = extended (with_versions t (bump (t_version t)) (bump (t_vversion t))) id (entry_new now h s st true)).
Proof.
  intros K Hb H. unfold tbl_update in H. destruct (ilookup (to_ident s) (t_idents t)) as [i|] eqn:E.
  - left. unfold update_element in H. destruct (alookup i (t_map t)) as [e|] eqn:Ee; [|discriminate].
    cbv zeta in H. injection H as <- <-. exists e. split; [auto|]. split; [|reflexivity].
    destruct (k_ident t K _ _ E) as (e1 & A & B). congruence.
  - right. apply add_service_shape in H. destruct H as (_ & A & B & C). split; [auto|]. split; [auto|]. split; [auto|].
    eexists. rewrite C. cbv zeta. replace (is_visible (entry_new now (u16 (hash (to_ident s))) s st true)) with true by (now destruct st). reflexivity.
Qed.

Inductive step_shape (t : table) (o : top) (t' : table) : Prop :=
| sh_refresh now : o = TRefresh now -> t' = tbl_refresh now t -> step_shape t o t'
| sh_old now s id e : added o = Some (now, s) -> alookup id (t_map t) = Some e -> to_ident (n_svc e) = to_ident s ->
    t' = replaced now t id e s true -> step_shape t o t'
| sh_new now s id h st : added o = Some (now, s) -> ilookup (to_ident s) (t_idents t) = None ->
    alookup id (t_map t) = None -> id < 2 ^ 16 -> st = match o with TAddStatic _ _ => true | _ => false end ->
    t' = extended (with_versions t (bump (t_version t)) (bump (t_vversion t))) id (entry_new now h s st true) ->
    step_shape t o t'.

Lemma step_shaped hash t o t' :
  consistent t -> built_ops [o] -> tbl_step hash t o = ROk t' -> step_shape t o t'.
Proof.
  intros K Hb H. unfold tbl_step in H. destruct o as [now s|now s|now].
  - unfold tbl_add in H. destruct (tbl_update _ _ _ _ _ _) as [[id x]| |] eqn:E; try discriminate. injection H as <-.
    apply update_shape in E; [|auto|inversion Hb; auto]. destruct E as [(e & A & B & C)|(A & B & C & h & D)].
    + apply (sh_old _ _ _ now s id e); auto.
    + apply (sh_new _ _ _ now s id h false); auto.
  - unfold tbl_add_static in H. destruct (tbl_update _ _ _ _ _ _) as [[id x]| |] eqn:E; try discriminate. injection H as <-.
    apply update_shape in E; [|auto|inversion Hb; auto]. destruct E as [(e & A & B & C)|(A & B & C & h & D)].
    + apply (sh_old _ _ _ now s id e); auto.
    + apply (sh_new _ _ _ now s id h true); auto.
  - injection H as <-. apply (sh_refresh _ _ _ now); auto.
Qed.

Lemma run_induction hash (P : table -> list top -> table -> Prop) :
  (forall t, consistent t -> P t [] t) ->
  (forall t o t1 os t', consistent t -> built_ops (o :: os) -> tbl_step hash t o = ROk t1 -> step_shape t o t1 ->
     consistent t1 -> tbl_run hash t1 os = ROk t' -> consistent t' -> P t1 os t' -> P t (o :: os) t') ->
  forall os t t', consistent t -> built_ops os -> tbl_run hash t os = ROk t' -> P t os t'.
Proof.
  intros H0 H1. induction os as [|o os IH]; intros t t' K Hb H; cbn [tbl_run] in H; [injection H as <-; auto|].
  destruct (tbl_step hash t o) as [t1| |] eqn:E; try discriminate.
  pose proof (proj1 (built_ops_cons o os) Hb) as [Hb1 Hb2].
  pose proof (step_consistent _ _ _ _ K Hb1 E) as K1.
  apply (H1 t o t1 os t'); auto.
  - eapply step_shaped; eauto.
  - eapply run_consistent; eauto.
Qed.

(** ** Stored services *)

Lemma stored_replaced now t id e s en i : alookup id (t_map t) = Some e ->
  stored (replaced now t id e s en) i = if N.eqb i id then Some s else stored t i.
Proof.
  intros He. unfold stored, replaced. cbn [with_versions with_map t_map]. rewrite alookup_insert.
  destruct (N.eqb i id); reflexivity.
Qed.

Lemma stored_extended t id e v vv i :
  stored (extended (with_versions t v vv) id e) i = if N.eqb i id then Some (n_svc e) else stored t i.
Proof.
  unfold stored, extended. cbn [with_versions t_map]. rewrite alookup_insert. destruct (N.eqb i id); reflexivity.
Qed.

Lemma stored_refresh now t i : stored (tbl_refresh now t) i = stored t i.
Proof.
  unfold stored, tbl_refresh. cbn [with_versions with_map t_map]. rewrite alookup_mapv.
  destruct (alookup i (t_map t)); reflexivity.
Qed.

(** ** C34 *)

Lemma step_assigned t o t' k id : step_shape t o t' -> assigned t k id -> assigned t' k id.
Proof.
  intros H (s & Hs & <-). destruct H as [now -> ->|now s' i e Ha He Hi ->|now s' i h st Ha Hn He Hi Hst ->].
  - exists s. rewrite stored_refresh. auto.
  - unfold assigned. rewrite (stored_replaced _ _ _ _ _ _ _ He). destruct (N.eqb_spec id i) as [->|]; [|eauto].
    exists s'. split; [auto|]. unfold stored in Hs. rewrite He in Hs. cbn in Hs. congruence.
  - unfold assigned. rewrite stored_extended. destruct (N.eqb_spec id i) as [->|]; [|eauto].
    unfold stored in Hs. rewrite He in Hs. discriminate.
Qed.

Lemma run_assigned hash os t t' k id :
  consistent t -> built_ops os -> tbl_run hash t os = ROk t' -> assigned t k id -> assigned t' k id.
Proof.
  intros K Hb H. revert k id. revert os t t' K Hb H.
  apply (run_induction hash (fun t os t' => forall k id, assigned t k id -> assigned t' k id)).
  - auto.
  - intros t o t1 os t' K Hb E Hs K1 H K' IH k id Ha. apply IH. eapply step_assigned; eauto.
Qed.

Lemma assigned_unique t k id k' id' : consistent t -> assigned t k id -> assigned t k' id' -> (k = k' <-> id = id').
Proof.
  intros K (s & Hs & <-) (s' & Hs' & <-). unfold stored in *.
  destruct (alookup id (t_map t)) as [e|] eqn:E; [|discriminate]. injection Hs as <-.
  destruct (alookup id' (t_map t)) as [e'|] eqn:E'; [|discriminate]. injection Hs' as <-.
  destruct (k_entry t K _ _ E) as (_ & _ & _ & A). destruct (k_entry t K _ _ E') as (_ & _ & _ & A').
  split; intros H; [rewrite H in A; congruence|]. subst id'. congruence.
Qed.

Lemma ids_stable hash os t t' k id :
  consistent t -> built_ops os -> tbl_run hash t os = ROk t' -> assigned t k id ->
  assigned t' k id /\ (forall id', assigned t' k id' -> id' = id) /\ (forall k', assigned t' k' id -> k' = k) /\
  (tbl_get_id t' k = ROk (Some id) \/ tbl_get_id t' k = ROk None).
Proof.
  intros K Hb H Ha. pose proof (run_consistent _ _ _ _ K Hb H) as K'.
  pose proof (run_assigned _ _ _ _ _ _ K Hb H Ha) as Ha'. split; [auto|]. split; [|split].
  - intros id' Hi. symmetry. apply (assigned_unique t' k id k id' K' Ha' Hi). reflexivity.
  - intros k' Hk. symmetry. apply (assigned_unique t' k id k' id K' Ha' Hk). reflexivity.
  - destruct Ha' as (s & Hs & Hk). unfold stored in Hs. destruct (alookup id (t_map t')) as [e|] eqn:E; [|discriminate].
    injection Hs as <-. destruct (k_entry t' K' _ _ E) as (_ & _ & _ & A). rewrite Hk in A.
    unfold tbl_get_id. rewrite A, E. destruct (_ || _); auto.
Qed.

(** ** Shown services *)

Lemma shown_stored t id s : consistent t -> shown t id = Some s -> stored t id = Some s.
Proof.
  intros K. rewrite shown_entry by auto. unfold stored. destruct (alookup id (t_map t)); [|discriminate].
  destruct (_ && _); [|discriminate]. cbn. auto.
Qed.

(** ** Counting differences *)

Lemma differing_one f g ids i : NoDup ids -> In i ids -> (forall x, x <> i -> f x = g x) ->
  differing f g ids = if oservice_eqb (f i) (g i) then 0 else 1.
Proof.
  unfold differing, nlen.
  assert (Hrefl : forall o, oservice_eqb o o = true).
  { intros [s|]; cbn; [destruct (service_eq_dec s s); congruence|reflexivity]. }
  induction ids as [|a ids IH]; intros Hn Hi Hfg; [contradiction|].
  inversion Hn as [|? ? Hn1 Hn2]; subst. cbn [filter].
  assert (Hnone : ~ In i ids -> filter (fun id => negb (oservice_eqb (f id) (g id))) ids = []).
  { clear IH Hn Hn1 Hn2 Hi. induction ids as [|b ids IH]; intros Hni; [reflexivity|]. cbn [filter].
    rewrite Hfg by (intros ->; apply Hni; now left). rewrite Hrefl. cbn [negb]. apply IH. intros H. apply Hni. now right. }
  destruct (N.eq_dec a i) as [->|Hne].
  - rewrite Hnone by auto. destruct (oservice_eqb (f i) (g i)); reflexivity.
  - destruct Hi as [->|Hi]; [contradiction|]. rewrite Hfg by auto. rewrite Hrefl. cbn [negb]. apply IH; auto.
Qed.

Lemma differing_same f g ids : (forall x, f x = g x) -> differing f g ids = 0.
Proof.
  intros H. unfold differing. replace (filter _ ids) with (@nil N); [reflexivity|].
  induction ids as [|a ids IH]; [reflexivity|]. cbn [filter]. rewrite H.
  replace (oservice_eqb (g a) (g a)) with true; [exact IH|].
  destruct (g a) as [s|]; cbn; [destruct (service_eq_dec s s); congruence|reflexivity].
Qed.

Lemma oservice_eqb_true a b : oservice_eqb a b = true -> a = b.
Proof. destruct a as [x|], b as [y|]; cbn; try discriminate; [destruct (service_eq_dec x y); congruence|auto]. Qed.

Lemma differing_zero f g ids : differing f g ids = 0 -> forall x, In x ids -> f x = g x.
Proof.
  unfold differing, nlen. intros H x Hx.
  destruct (oservice_eqb (f x) (g x)) eqn:E; [now apply oservice_eqb_true|].
  assert (Hi : In x (filter (fun id => negb (oservice_eqb (f id) (g id))) ids)).
  { apply filter_In. split; [auto|]. now rewrite E. }
  destruct (filter _ ids); [contradiction|]. cbn [length] in H. lia.
Qed.

Lemma differing_pairs (f g : N -> option service) (m : list (N * entry)) (q : N * entry -> bool) :
  (forall p, In p m -> oservice_eqb (f (fst p)) (g (fst p)) = negb (q p)) ->
  differing f g (map fst m) = nlen (filter q m).
Proof.
  unfold differing, nlen. induction m as [|p m IH]; intros H; [reflexivity|]. cbn [map filter].
  rewrite H by now left. rewrite negb_involutive. specialize (IH (fun x Hx => H x (or_intror Hx))).
  destruct (q p); cbn [length]; lia.
Qed.

Lemma fold_bump {A} (l : list A) v : v < 2 ^ 32 -> fold_left (fun v _ => bump v) l v = (v + nlen l) mod 2 ^ 32.
Proof.
  unfold nlen. revert v. induction l as [|a l IH]; intros v Hv; cbn [fold_left length].
  - change (2 ^ 32) with 4294967296 in *. lia.
  - rewrite IH by apply bump_lt. unfold bump. change (2 ^ 32) with 4294967296 in *. lia.
Qed.

(** ** C35 *)

Lemma keys_in id (t : table) : (exists e, alookup id (t_map t) = Some e) <-> In id (map fst (t_map t)).
Proof.
  split.
  - intros [e H]. destruct (in_dec N.eq_dec id (map fst (t_map t))) as [|n]; [auto|]. apply alookup_none in n. congruence.
  - intros H. destruct (alookup id (t_map t)) eqn:E; [eauto|]. apply alookup_none in E. contradiction.
Qed.

Lemma visible_same now e : is_visible (update_active_flag now e) = if n_static e then n_enabled e else Z.geb (i64 (n_seen e + ACTIVE_THRESHOLD)) now.
Proof. reflexivity. Qed.

Lemma step_versions t o t' : consistent t -> built_ops [o] -> consistent t' -> step_shape t o t' ->
  t_version t' = (t_version t + differing (stored t) (stored t') (map fst (t_map t'))) mod 2 ^ 32 /\
  t_vversion t' = (t_vversion t + differing (shown t) (shown t') (map fst (t_map t'))) mod 2 ^ 32.
Proof.
  intros K Hb K' H. pose proof (k_versions t K) as [Hv Hvv].
  assert (Hz : forall v, v < 2 ^ 32 -> v = (v + 0) mod 2 ^ 32).
  { intros v H0. rewrite N.add_0_r, N.mod_small; auto. }
  destruct H as [now -> Ht|now s i e Ha He Hi Ht|now s i h st Ha Hn He Hi Hst Ht].
  - split.
    + rewrite differing_same; [|intros x; subst t'; symmetry; apply stored_refresh]. subst t'. apply Hz, Hv.
    + assert (Hkeys : map fst (t_map t') = map fst (t_map t)).
      { subst t'. unfold tbl_refresh. cbn [with_versions with_map t_map]. now rewrite map_map. }
      rewrite Hkeys.
      rewrite (differing_pairs _ _ (t_map t) (fun p => xorb (is_visible (snd p)) (is_visible (update_active_flag now (snd p))))).
      * rewrite Ht. unfold tbl_refresh. cbn [with_versions t_vversion]. apply fold_bump, Hvv.
      * intros [id e] Hp. cbn [fst snd]. apply alookup_unique in Hp; [|apply K].
        rewrite !shown_entry by auto. rewrite Hp. subst t'. unfold tbl_refresh. cbn [with_versions with_map t_map].
        rewrite alookup_mapv, Hp. cbn [option_map]. cbn [update_active_flag n_svc] in *.
        destruct (svc_is_control (n_svc e)) eqn:Ec.
        -- assert (id = 0). { apply (k_only_control t K id (n_svc e)); [unfold stored; now rewrite Hp|auto]. } subst id.
           destruct (k_control t K) as (c & Hc & Hcs & Hcst & Hcen). assert (e = c) by congruence. subst c.
           unfold is_visible, update_active_flag. cbn [n_static n_enabled]. rewrite Hcst, Hcen. reflexivity.
        -- cbn [negb]. rewrite !andb_true_r.
           change {| n_id := n_id e; n_svc := n_svc e; n_static := n_static e; n_enabled := n_enabled e; n_seen := n_seen e;
                     n_active := Z.geb (i64 (n_seen e + ACTIVE_THRESHOLD)) now |} with (update_active_flag now e).
           destruct (is_visible e), (is_visible (update_active_flag now e)); cbn; try reflexivity.
           destruct (service_eq_dec (n_svc e) (n_svc e)); congruence.
  - assert (Hin : In i (map fst (t_map t'))).
    { apply keys_in. subst t'. unfold replaced. cbn [with_versions with_map t_map]. rewrite insert_same. eauto. }
    split.
    + rewrite (differing_one _ _ _ i); [|apply K'|auto|].
      * subst t'. rewrite (stored_replaced _ _ _ _ _ _ _ He). rewrite N.eqb_refl.
        unfold stored. rewrite He. cbn [option_map oservice_eqb]. unfold replaced. cbn [with_versions t_version].
        destruct (service_eq_dec (n_svc e) s); [apply Hz, Hv|reflexivity].
      * intros x Hx. subst t'. rewrite (stored_replaced _ _ _ _ _ _ _ He). apply N.eqb_neq in Hx. now rewrite Hx.
    + rewrite (differing_one _ _ _ i); [|apply K'|auto|].
      * rewrite !shown_entry by auto. rewrite He. subst t'. unfold replaced. cbn [with_versions with_map t_map t_vversion].
        rewrite insert_same. cbn [entry_update n_svc].
        change {| n_id := n_id e; n_svc := s; n_static := n_static e; n_enabled := true; n_seen := now; n_active := n_active e |}
          with (entry_update now e s true).
        rewrite (same_control _ _ Hi).
        destruct (svc_is_control s) eqn:Ec.
        -- assert (Hs : s = svc_control). { apply built_control; [|auto]. unfold built_ops, adds in Hb. cbn [flat_map] in Hb. rewrite Ha in Hb. inversion Hb; auto. }
           assert (Hes : n_svc e = svc_control). { apply ident_control; [apply (k_entry t K _ _ He)|]. now rewrite Hi, Hs. }
           assert (i = 0). { apply (k_only_control t K i (n_svc e)); [unfold stored; now rewrite He|now rewrite Hes]. } subst i.
           destruct (k_control t K) as (c & Hc & Hcs & Hcst & Hcen). assert (e = c) by congruence. subst c.
           unfold is_visible, entry_update. cbn [n_static n_enabled]. rewrite Hcst, Hcen. rewrite Hes, Hs.
           destruct (service_eq_dec svc_control svc_control); [|congruence]. cbn [xorb orb andb negb oservice_eqb]. apply Hz, Hvv.
        -- cbn [negb]. rewrite !andb_true_r.
           destruct (is_visible e), (is_visible (entry_update now e s true)), (service_eq_dec (n_svc e) s); cbn [xorb orb andb oservice_eqb];
             try reflexivity; try (apply Hz, Hvv); destruct (service_eq_dec (n_svc e) s); try congruence; try reflexivity; apply Hz, Hvv.
      * intros x Hx. rewrite !shown_entry by auto. subst t'. unfold replaced. cbn [with_versions with_map t_map].
        rewrite insert_other by auto. reflexivity.
  - assert (Hin : In i (map fst (t_map t'))).
    { apply keys_in. subst t'. unfold extended. cbn [t_map with_versions]. rewrite insert_same. eauto. }
    split.
    + rewrite (differing_one _ _ _ i); [|apply K'|auto|].
      * subst t'. rewrite stored_extended, N.eqb_refl. unfold stored. rewrite He. reflexivity.
      * intros x Hx. subst t'. rewrite stored_extended. apply N.eqb_neq in Hx. now rewrite Hx.
    + rewrite (differing_one _ _ _ i); [|apply K'|auto|].
      * rewrite !shown_entry by auto. rewrite He. subst t'. unfold extended. cbn [with_versions t_map t_vversion].
        rewrite insert_same. cbn [with_id entry_new n_svc n_static n_enabled n_active is_visible].
        replace (svc_is_control s) with false.
        2:{ symmetry. destruct (svc_is_control s) eqn:Ec; [|reflexivity]. exfalso.
            assert (Hs : s = svc_control). { apply built_control; [|auto]. unfold built_ops, adds in Hb. cbn [flat_map] in Hb. rewrite Ha in Hb. inversion Hb; auto. }
            destruct (k_control t K) as (c & Hc & Hcs & _). destruct (k_entry t K _ _ Hc) as (_ & _ & _ & Hl).
            rewrite Hcs, <- Hs in Hl. congruence. }
        destruct st; reflexivity.
      * intros x Hx. rewrite !shown_entry by auto. subst t'. unfold extended. cbn [with_versions t_map].
        rewrite insert_other by auto. reflexivity.
Qed.

Lemma run_versions hash os t t' : consistent t -> built_ops os -> tbl_run hash t os = ROk t' ->
  t_version t' = (t_version t + stored_changes hash t os) mod 2 ^ 32 /\
  t_vversion t' = (t_vversion t + shown_changes hash t os) mod 2 ^ 32.
Proof.
  revert os t t'. apply (run_induction hash (fun t os t' =>
    t_version t' = (t_version t + stored_changes hash t os) mod 2 ^ 32 /\
    t_vversion t' = (t_vversion t + shown_changes hash t os) mod 2 ^ 32)).
  - intros t K. pose proof (k_versions t K) as [A B]. unfold stored_changes, shown_changes. cbn [moments map total fold_right].
    rewrite !N.add_0_r, !N.mod_small; auto.
  - intros t o t1 os t' K Hb E Hs K1 H K' [IH1 IH2]. apply built_ops_cons in Hb as [Hb1 Hb2].
    destruct (step_versions t o t1 K Hb1 K1 Hs) as [S1 S2].
    unfold stored_changes, shown_changes in *. cbn [moments]. rewrite E. cbn [map total fold_right fst snd].
    fold (total (map (fun p => differing (stored (fst p)) (stored (snd p)) (map fst (t_map (snd p)))) (moments hash t1 os))).
    fold (total (map (fun p => differing (shown (fst p)) (shown (snd p)) (map fst (t_map (snd p)))) (moments hash t1 os))).
    rewrite IH1, IH2, S1, S2. rewrite !N.add_mod_idemp_l by discriminate. rewrite !N.add_assoc. auto.
Qed.

Lemma step_keys t o t' id : consistent t -> consistent t' -> step_shape t o t' ->
  ~ In id (map fst (t_map t')) -> ~ In id (map fst (t_map t)).
Proof.
  intros K K' H Hn Hi. apply Hn. apply keys_in in Hi as [e He]. apply keys_in.
  destruct H as [now -> ->|now s i x Ha Hx Hi ->|now s i h st Ha Hno Hx Hi Hst ->].
  - unfold tbl_refresh. cbn [with_versions with_map t_map]. rewrite alookup_mapv, He. cbn. eauto.
  - unfold replaced. cbn [with_versions with_map t_map]. rewrite alookup_insert. destruct (N.eqb id i); eauto.
  - unfold extended. cbn [with_versions t_map]. rewrite alookup_insert. destruct (N.eqb id i); eauto.
Qed.

Lemma shown_outside t id : consistent t -> ~ In id (map fst (t_map t)) -> shown t id = None /\ stored t id = None.
Proof.
  intros K H. apply alookup_none in H. rewrite shown_entry by auto. unfold stored. rewrite H. auto.
Qed.

Lemma step_unchanged t o t' : consistent t -> consistent t' -> step_shape t o t' ->
  (differing (shown t) (shown t') (map fst (t_map t')) = 0 -> forall id, shown t id = shown t' id) /\
  (differing (stored t) (stored t') (map fst (t_map t')) = 0 -> forall id, stored t id = stored t' id).
Proof.
  intros K K' Hs. split; intros Hd id; (destruct (in_dec N.eq_dec id (map fst (t_map t'))) as [Hi|Hi];
    [eapply differing_zero in Hd; eauto|]);
    destruct (shown_outside t' id K' Hi) as [A B]; destruct (shown_outside t id K (step_keys _ _ _ _ K K' Hs Hi)) as [C D]; congruence.
Qed.

Lemma run_unchanged hash os t t' : consistent t -> built_ops os -> tbl_run hash t os = ROk t' ->
  (shown_changes hash t os = 0 -> forall id, shown t id = shown t' id) /\
  (stored_changes hash t os = 0 -> forall id, stored t id = stored t' id).
Proof.
  revert os t t'. apply (run_induction hash (fun t os t' =>
    (shown_changes hash t os = 0 -> forall id, shown t id = shown t' id) /\
    (stored_changes hash t os = 0 -> forall id, stored t id = stored t' id))).
  - auto.
  - intros t o t1 os t' K Hb E Hs K1 H K' [IH1 IH2]. destruct (step_unchanged t o t1 K K1 Hs) as [U1 U2].
    unfold stored_changes, shown_changes in *. cbn [moments]. rewrite E. cbn [map total fold_right fst snd].
    fold (total (map (fun p => differing (stored (fst p)) (stored (snd p)) (map fst (t_map (snd p)))) (moments hash t1 os))).
    fold (total (map (fun p => differing (shown (fst p)) (shown (snd p)) (map fst (t_map (snd p)))) (moments hash t1 os))).
    split; intros Hz id.
    + rewrite U1 by lia. apply IH1. lia.
    + rewrite U2 by lia. apply IH2. lia.
Qed.

Lemma version_detects hash os t t' : consistent t -> built_ops os -> tbl_run hash t os = ROk t' ->
  (shown_changes hash t os < 2 ^ 32 -> (exists id, shown t id <> shown t' id) -> t_vversion t' <> t_vversion t) /\
  (stored_changes hash t os < 2 ^ 32 -> (exists id, stored t id <> stored t' id) -> t_version t' <> t_version t).
Proof.
  intros K Hb H. destruct (run_versions _ _ _ _ K Hb H) as [V1 V2]. destruct (run_unchanged _ _ _ _ K Hb H) as [U1 U2].
  pose proof (k_versions t K) as [A B]. change (2 ^ 32) with 4294967296 in *.
  split; intros Hl [id Hid].
  - assert (shown_changes hash t os <> 0) by (intros E; apply Hid, U1, E). lia.
  - assert (stored_changes hash t os <> 0) by (intros E; apply Hid, U2, E). lia.
Qed.

Lemma total_zero l : (forall x, In x l -> x = 0) -> total l = 0.
Proof.
  induction l as [|a l IH]; cbn [total fold_right]; intros H; [reflexivity|]. rewrite (H a) by now left.
  apply IH. intros x Hx. apply H. now right.
Qed.

Lemma version_quiet hash os t t' : consistent t -> built_ops os -> tbl_run hash t os = ROk t' ->
  ((forall a b id, In (a, b) (moments hash t os) -> shown a id = shown b id) -> t_vversion t' = t_vversion t) /\
  ((forall a b id, In (a, b) (moments hash t os) -> stored a id = stored b id) -> t_version t' = t_version t).
Proof.
  intros K Hb H. destruct (run_versions _ _ _ _ K Hb H) as [V1 V2]. pose proof (k_versions t K) as [A B].
  split; intros Hq.
  - rewrite V2. replace (shown_changes hash t os) with 0; [rewrite N.add_0_r, N.mod_small; auto|].
    symmetry. apply total_zero. intros x Hx. apply in_map_iff in Hx as ([a b] & <- & Hp). cbn [fst snd].
    apply differing_same. intros id. eauto.
  - rewrite V1. replace (stored_changes hash t os) with 0; [rewrite N.add_0_r, N.mod_small; auto|].
    symmetry. apply total_zero. intros x Hx. apply in_map_iff in Hx as ([a b] & <- & Hp). cbn [fst snd].
    apply differing_same. intros id. eauto.
Qed.

Lemma ident_same s s' :
  (svc_is_control s = true <-> s_type s = ControlProtocol) /\
  (to_ident s = to_ident s' <->
   s_type s = s_type s' /\ s_mac s = s_mac s' /\ s_path s = s_path s' /\
   (forall p, (exists a, s_addr s = Some a /\ sa_port a = p) <-> (exists a, s_addr s' = Some a /\ sa_port a = p))).
Proof.
  split; [unfold svc_is_control, type_is_control; destruct (s_type s); split; congruence|].
  unfold to_ident, svc_port. split.
  - intros E. injection E as E1 E2 E3 E4. repeat split; try assumption; intros (a & A & B);
      destruct (s_addr s) as [x|], (s_addr s') as [y|]; cbn [option_map] in E3; try discriminate; injection E3 as E3; injection A as <-; eexists; split; try reflexivity; congruence.
  - intros (-> & -> & -> & E). f_equal. destruct (s_addr s) as [x|], (s_addr s') as [y|]; cbn [option_map]; [| | |reflexivity].
    + destruct (proj1 (E (sa_port x))) as (a & A & B); [eauto|]. injection A as <-. now rewrite B.
    + destruct (proj1 (E (sa_port x))) as (a & A & B); [eauto|]. discriminate.
    + destruct (proj2 (E (sa_port y))) as (a & A & B); [eauto|]. discriminate.
Qed.
