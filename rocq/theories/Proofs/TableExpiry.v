(** Expiry and visibility of services. *)
From Coq Require Import NArith ZArith List Bool Lia.
From Coq Require Import ZifyBool ZifyNat ZifyN.
From Verif.Model Require Import Bytes Service Alist SvcTable.
From Verif.Spec Require Import TableSpec.
From Verif.Proofs Require Import AlistFacts TableProofs TablePropsPf.
Import ListNotations.
Local Open Scope N_scope.
Ltac Zify.zify_post_hook ::= Z.div_mod_to_equations.

Lemma i64_small x : sane_time x -> i64 (x + ACTIVE_THRESHOLD) = (x + 1200)%Z.
Proof.
  unfold sane_time, i64, ACTIVE_THRESHOLD. intros H. rewrite Z.mod_small; [lia|].
  change (2 ^ 63)%Z with 9223372036854775808%Z in *. change (2 ^ 64)%Z with 18446744073709551616%Z. lia.
Qed.

(** The entry touched by an addition. *)
Lemma step_touch t o t1 now s : step_shape t o t1 -> added o = Some (now, s) ->
  exists i e, alookup i (t_map t1) = Some e /\ n_svc e = s /\ n_seen e = now /\ n_enabled e = true /\
    (forall x, x <> i -> alookup x (t_map t1) = alookup x (t_map t)).
Proof.
  intros H Ha. destruct H as [now' -> _|now' s' i e Ha' He Hi ->|now' s' i h st Ha' Hn He Hi Hst ->].
  - discriminate.
  - rewrite Ha in Ha'. injection Ha' as <- <-. exists i, (entry_update now e s true).
    unfold replaced. cbn [with_versions with_map t_map]. rewrite insert_same.
    split; [auto|]. split; [auto|]. split; [auto|]. split; [auto|]. intros x Hx. now rewrite insert_other.
  - rewrite Ha in Ha'. injection Ha' as <- <-. exists i, (with_id i (entry_new now h s st true)).
    unfold extended. cbn [with_versions t_map]. rewrite insert_same.
    split; [auto|]. split; [auto|]. split; [auto|]. split; [auto|]. intros x Hx. now rewrite insert_other.
Qed.

Lemma adds_cons o os : adds (o :: os) = (match added o with Some p => [p] | None => [] end) ++ adds os.
Proof. reflexivity. Qed.

Lemma refresh_entry now t id : alookup id (t_map (tbl_refresh now t)) = option_map (update_active_flag now) (alookup id (t_map t)).
Proof. unfold tbl_refresh. cbn [with_versions with_map t_map]. apply alookup_mapv. Qed.

(** The touched entry is the one of the identity. *)
Lemma touched_iff hash t1 os t' i e id k s :
  consistent t1 -> built_ops os -> tbl_run hash t1 os = ROk t' -> consistent t' ->
  alookup i (t_map t1) = Some e -> n_svc e = s -> assigned t' k id -> (to_ident s = k <-> i = id).
Proof.
  intros K1 Hb H K' He Hs Ha.
  assert (Hi : assigned t1 (to_ident s) i). { exists s. unfold stored. rewrite He. cbn. now rewrite Hs. }
  apply (run_assigned hash os t1 t') in Hi; auto. apply (assigned_unique t'); auto.
Qed.

Lemma run_seen hash os t t' : consistent t -> built_ops os -> tbl_run hash t os = ROk t' ->
  forall k id, assigned t' k id -> seen t' id = last_added k (adds os) (seen t id).
Proof.
  revert os t t'. apply (run_induction hash (fun t os t' =>
    forall k id, assigned t' k id -> seen t' id = last_added k (adds os) (seen t id))).
  - reflexivity.
  - intros t o t1 os t' K Hb E Hs K1 H K' IH k id Hk. rewrite (IH k id Hk). rewrite adds_cons.
    apply built_ops_cons in Hb as [Hb1 Hb2].
    destruct (added o) as [[now s]|] eqn:Ha.
    + cbn [app last_added]. f_equal. destruct (step_touch _ _ _ _ _ Hs Ha) as (i & e & He & Hes & Hen & _ & Ho).
      pose proof (touched_iff hash t1 os t' i e id k s K1 Hb2 H K' He Hes Hk) as Ht.
      unfold seen. destruct (ident_eq_dec (to_ident s) k) as [Hik|Hik].
      * apply Ht in Hik. subst i. rewrite He. cbn. now rewrite Hen.
      * rewrite Ho; [reflexivity|]. intros ->. apply Hik. now apply Ht.
    + cbn [app]. f_equal. destruct o; try discriminate. cbn [tbl_step] in E. injection E as <-.
      unfold seen. rewrite refresh_entry. destruct (alookup id (t_map t)); reflexivity.
Qed.

Lemma run_enabled hash os t t' : consistent t -> built_ops os -> tbl_run hash t os = ROk t' ->
  forall k id, assigned t' k id -> (enabled t' id <-> enabled t id \/ was_added k os).
Proof.
  revert os t t'. apply (run_induction hash (fun t os t' =>
    forall k id, assigned t' k id -> (enabled t' id <-> enabled t id \/ was_added k os))).
  - intros t K k id _. split; [auto|]. intros [|(now & s & [] & _)]; auto.
  - intros t o t1 os t' K Hb E Hs K1 H K' IH k id Hk. rewrite (IH k id Hk). clear IH.
    apply built_ops_cons in Hb as [Hb1 Hb2].
    assert (Hw : was_added k (o :: os) <-> (exists now s, added o = Some (now, s) /\ to_ident s = k) \/ was_added k os).
    { unfold was_added. rewrite adds_cons. split.
      - intros (now & s & Hin & Hi). apply in_app_or in Hin as [Hin|Hin]; [left|right; eauto].
        destruct (added o) as [[a b]|]; [|contradiction]. destruct Hin as [[= -> ->]|[]]. eauto.
      - intros [(now & s & Ha & Hi)|(now & s & Hin & Hi)]; exists now, s; (split; [|auto]); apply in_or_app; [left|now right].
        rewrite Ha. now left. }
    rewrite Hw. destruct (added o) as [[now s]|] eqn:Ha.
    + destruct (step_touch _ _ _ _ _ Hs Ha) as (i & e & He & Hes & _ & Hen & Ho).
      pose proof (touched_iff hash t1 os t' i e id k s K1 Hb2 H K' He Hes Hk) as Ht.
      destruct (ident_eq_dec (to_ident s) k) as [Hik|Hik].
      * assert (i = id) by now apply Ht. subst i. split; [intros _; right; left; eauto|].
        intros _. left. unfold enabled. rewrite He. cbn. now rewrite Hen.
      * unfold enabled. rewrite Ho by (intros ->; apply Hik; now apply Ht).
        split; [intros [|]; auto|]. intros [|[(a & b & [= <- <-] & C)|]]; auto. contradiction.
    + assert (He : enabled t1 id <-> enabled t id).
      { destruct o; try discriminate. cbn [tbl_step] in E. injection E as <-.
        unfold enabled. rewrite refresh_entry. destruct (alookup id (t_map t)); reflexivity. }
      rewrite He. split; [intros [|]; auto|]. intros [|[(a & b & C & _)|]]; auto. discriminate.
Qed.

Lemma run_static hash os t t' : consistent t -> built_ops os -> tbl_run hash t os = ROk t' ->
  forall id b, static t id = Some b -> static t' id = Some b.
Proof.
  revert os t t'. apply (run_induction hash (fun t os t' => forall id b, static t id = Some b -> static t' id = Some b)).
  - auto.
  - intros t o t1 os t' K Hb E Hs K1 H K' IH id b Hst. apply IH. revert Hst. unfold static.
    destruct Hs as [now -> ->|now s i e Ha He Hi ->|now s i h st Ha Hn He Hi Hst ->].
    + rewrite refresh_entry. destruct (alookup id (t_map t)); auto.
    + unfold replaced. cbn [with_versions with_map t_map]. rewrite alookup_insert.
      destruct (N.eqb_spec id i) as [->|]; [|auto]. rewrite He. auto.
    + unfold extended. cbn [with_versions t_map]. rewrite alookup_insert.
      destruct (N.eqb_spec id i) as [->|]; [|auto]. rewrite He. discriminate.
Qed.

(** ** C36 *)

Lemma refresh_shown t now id s : consistent t -> stored t id = Some s -> svc_is_control s = false ->
  (static t id = Some false -> forall x, seen t id = Some x -> sane_time x ->
     (shown (tbl_refresh now t) id = Some s <-> (now - 1200 <= x)%Z)) /\
  (static t id = Some true -> (shown (tbl_refresh now t) id = Some s <-> enabled t id)).
Proof.
  intros K Hs Hc. pose proof (refresh_consistent now t K) as K'.
  unfold stored in Hs. destruct (alookup id (t_map t)) as [e|] eqn:E; [|discriminate]. injection Hs as <-.
  assert (Hsh : shown (tbl_refresh now t) id = if is_visible (update_active_flag now e) then Some (n_svc e) else None).
  { rewrite shown_entry by auto. rewrite refresh_entry, E. cbn [option_map update_active_flag n_svc]. rewrite Hc.
    now rewrite andb_true_r. }
  rewrite Hsh. unfold static, seen, enabled. rewrite E. cbn [option_map].
  split.
  - intros [= Hst] x [= <-] Hx. unfold is_visible, update_active_flag. cbn [n_static n_active]. rewrite Hst, (i64_small _ Hx).
    destruct (Z.geb_spec (n_seen e + 1200) now); split; intros H0; try discriminate; try reflexivity; lia.
  - intros [= Hst]. unfold is_visible, update_active_flag. cbn [n_static n_enabled]. rewrite Hst.
    destruct (n_enabled e); split; congruence.
Qed.

(** A time so late that the end of its 1200 seconds overflows *)
Lemma i64_large x : (2 ^ 63 - 1200 <= x < 2 ^ 63)%Z -> i64 (x + ACTIVE_THRESHOLD) = (x + 1200 - 2 ^ 64)%Z.
Proof.
  unfold i64, ACTIVE_THRESHOLD. intros H. rewrite <- (Z_mod_plus_full _ (-1)).
  rewrite Z.mod_small by lia. lia.
Qed.
Lemma far_shown t now id s x : consistent t -> stored t id = Some s -> svc_is_control s = false -> static t id = Some false ->
  seen t id = Some x -> (2 ^ 63 - 1200 <= x < 2 ^ 63)%Z ->
  (shown (tbl_refresh now t) id = Some s <-> (now <= x + 1200 - 2 ^ 64)%Z).
Proof.
  intros K Hs Hc. pose proof (refresh_consistent now t K) as K'.
  unfold stored in Hs. destruct (alookup id (t_map t)) as [e|] eqn:E; [|discriminate]. injection Hs as <-.
  assert (Hsh : shown (tbl_refresh now t) id = if is_visible (update_active_flag now e) then Some (n_svc e) else None).
  { rewrite shown_entry by auto. rewrite refresh_entry, E. cbn [option_map update_active_flag n_svc]. rewrite Hc.
    now rewrite andb_true_r. }
  rewrite Hsh. unfold static, seen. rewrite E. cbn [option_map].
  intros [= Hst] [= <-] Hx. unfold is_visible, update_active_flag. cbn [n_static n_active]. rewrite Hst, (i64_large _ Hx).
  destruct (Z.geb_spec (n_seen e + 1200 - 2 ^ 64) now); split; intros H0; try discriminate; try reflexivity; lia.
Qed.

Lemma last_added_sane k l d x : (forall y, d = Some y -> sane_time y) -> Forall (fun p => sane_time (fst p)) l ->
  last_added k l d = Some x -> sane_time x.
Proof.
  revert d. induction l as [|[now s] l IH]; cbn [last_added]; intros d Hd Hf H; [auto|].
  inversion Hf; subst. apply IH in H; auto. destruct (ident_eq_dec _ _); [|auto]. intros y [= <-]. auto.
Qed.

Lemma discovered_expire hash os t t' now k id s :
  consistent t -> sane t -> built_ops os -> sane_ops os -> tbl_run hash t os = ROk t' ->
  stored t' id = Some s -> to_ident s = k -> svc_is_control s = false -> static t' id = Some false ->
  (shown (tbl_refresh now t') id = Some s <-> exists x, last_added k (adds os) (seen t id) = Some x /\ (now - 1200 <= x)%Z).
Proof.
  intros K Hsane Hb Hso H Hs Hk Hc Hst. pose proof (run_consistent _ _ _ _ K Hb H) as K'.
  assert (Ha : assigned t' k id) by (exists s; auto).
  pose proof (run_seen _ _ _ _ K Hb H k id Ha) as Hseen.
  assert (Hex : exists x, seen t' id = Some x).
  { unfold stored in Hs. unfold seen. destruct (alookup id (t_map t')); [cbn; eauto|discriminate]. }
  destruct Hex as [x Hx].
  assert (Hsx : sane_time x).
  { rewrite Hx in Hseen. symmetry in Hseen. eapply last_added_sane; eauto. }
  destruct (refresh_shown t' now id s K' Hs Hc) as [R _]. rewrite (R Hst x Hx Hsx).
  rewrite <- Hseen. split; [eauto|]. intros (y & Hy & Hl). congruence.
Qed.

Lemma static_shown hash os t t' now k id s :
  consistent t -> built_ops os -> tbl_run hash t os = ROk t' ->
  stored t' id = Some s -> to_ident s = k -> svc_is_control s = false -> static t' id = Some true ->
  (shown (tbl_refresh now t') id = Some s <-> enabled t id \/ was_added k os).
Proof.
  intros K Hb H Hs Hk Hc Hst. pose proof (run_consistent _ _ _ _ K Hb H) as K'.
  assert (Ha : assigned t' k id) by (exists s; auto).
  destruct (refresh_shown t' now id s K' Hs Hc) as [_ R]. rewrite (R Hst). eapply run_enabled; eauto.
Qed.

Lemma get_exact t id s : consistent t ->
  (tbl_get t id = Some s <-> shown t id = Some s \/ (id = 0 /\ s = svc_control)).
Proof.
  intros K. rewrite shown_entry by auto. unfold tbl_get. destruct (k_control t K) as (c & Hc & Hcs & _).
  destruct (alookup id (t_map t)) as [e|] eqn:E.
  - destruct (svc_is_control (n_svc e)) eqn:Ec.
    + assert (id = 0). { apply (k_only_control t K id (n_svc e)); [unfold stored; now rewrite E|auto]. } subst id.
      assert (e = c) by congruence. subst c. rewrite Hcs, orb_true_r, andb_false_r.
      split; [intros [= <-]; auto|intros [|[_ ->]]; [discriminate|reflexivity]].
    + rewrite orb_false_r, andb_true_r. split; [auto|]. intros [|[-> ->]]; [auto|].
      exfalso. assert (e = c) by congruence. subst c. rewrite Hcs in Ec. discriminate.
  - split; [discriminate|]. intros [|[-> ->]]; [discriminate|congruence].
Qed.

(** ** C37 *)

Lemma add_visible hash t now s st : consistent t -> built s -> svc_is_control s = false ->
  forall id t', tbl_update hash now t s st true = ROk (id, t') ->
  stored t id = None \/ static t id = Some true \/ shown t id <> None -> shown t' id = Some s.
Proof.
  intros K Hb Hc id t' H Hcase. pose proof (tbl_update_consistent _ _ _ _ _ _ _ K Hb H) as K'.
  apply update_shape in H; auto. rewrite shown_entry by auto.
  destruct H as [(e & He & Hi & ->)|(_ & He & _ & h & ->)].
  - unfold replaced. cbn [with_versions with_map t_map]. rewrite insert_same. cbn [entry_update n_svc]. rewrite Hc.
    rewrite andb_true_r. unfold is_visible. cbn [entry_update n_static n_enabled n_active].
    destruct Hcase as [Hcase|[Hcase|Hcase]].
    + unfold stored in Hcase. rewrite He in Hcase. discriminate.
    + unfold static in Hcase. rewrite He in Hcase. injection Hcase as ->. reflexivity.
    + rewrite shown_entry in Hcase by auto. rewrite He in Hcase.
      destruct (is_visible e && negb (svc_is_control (n_svc e))) eqn:Ev; [|congruence].
      apply andb_true_iff in Ev as [Ev _]. unfold is_visible in Ev. destruct (n_static e); [reflexivity|]. now rewrite Ev.
  - unfold extended. cbn [with_versions t_map]. rewrite insert_same. cbn [with_id entry_new n_svc n_static n_enabled n_active is_visible].
    rewrite Hc. destruct st; reflexivity.
Qed.

(** A scan adds the services and refreshes the table (`update_service_table`). *)
Lemma add_refresh_visible hash t now s st now' os t1 t' id :
  consistent t -> built s -> svc_is_control s = false -> sane_time now ->
  tbl_update hash now t s st true = ROk (id, t1) ->
  Forall (fun o => match added o with Some (x, s') => to_ident s' = to_ident s -> sane_time x /\ (now' - 1200 <= x)%Z | None => True end) os ->
  built_ops os -> (now' - 1200 <= now)%Z ->
  tbl_run hash t1 os = ROk t' -> exists s', shown (tbl_refresh now' t') id = Some s' /\ to_ident s' = to_ident s.
Proof.
  intros K Hb Hc Hnow H Hf Hbo Hn Hrun.
  pose proof (tbl_update_consistent _ _ _ _ _ _ _ K Hb H) as K1.
  pose proof (run_consistent _ _ _ _ K1 Hbo Hrun) as K'.
  assert (Hstep : exists o, added o = Some (now, s) /\ tbl_step hash t o = ROk t1 /\ built_ops [o]).
  { destruct st; [exists (TAddStatic now s)|exists (TAdd now s)]; cbn [tbl_step]; unfold tbl_add, tbl_add_static; rewrite H;
      (split; [reflexivity|]; split; [reflexivity|]; repeat constructor; auto). }
  destruct Hstep as (o & Ha & Hstep & Hbo1).
  assert (Hsh : alookup id (t_map t1) <> None /\ stored t1 id = Some s /\ seen t1 id = Some now /\ enabled t1 id).
  { apply update_shape in H; auto. unfold stored, seen, enabled.
    destruct H as [(e & He & Hi & ->)|(_ & He & _ & h & ->)].
    - unfold replaced. cbn [with_versions with_map t_map]. rewrite insert_same. repeat split; discriminate.
    - unfold extended. cbn [with_versions t_map]. rewrite insert_same. repeat split; discriminate. }
  destruct Hsh as (_ & Hs & Hseen & Hen).
  assert (Has : assigned t1 (to_ident s) id) by (exists s; auto).
  pose proof (run_assigned _ _ _ _ _ _ K1 Hbo Hrun Has) as Has'. destruct Has' as (s' & Hs' & Hi').
  exists s'. split; [|auto].
  assert (Hc' : svc_is_control s' = false) by (rewrite (same_control _ _ Hi'); auto).
  assert (Has' : assigned t' (to_ident s) id) by (exists s'; auto).
  destruct (refresh_shown t' now' id s' K' Hs' Hc') as [R1 R2].
  assert (Hst : exists b, static t' id = Some b).
  { unfold stored in Hs'. unfold static. destruct (alookup id (t_map t')); [cbn; eauto|discriminate]. }
  destruct Hst as [[|] Hst].
  - apply (R2 Hst). apply (run_enabled hash os t1 t' K1 Hbo Hrun _ _ Has'). now left.
  - assert (Hx : exists x, seen t' id = Some x /\ sane_time x /\ (now' - 1200 <= x)%Z).
    { rewrite (run_seen hash os t1 t' K1 Hbo Hrun _ _ Has'). rewrite Hseen. clear - Hf Hn Hnow.
      revert now Hnow Hn. induction os as [|o os IH]; intros now Hnow Hn; [cbn; eauto|].
      inversion Hf as [|? ? Hf1 Hf2]; subst. rewrite adds_cons. destruct (added o) as [[x s0]|]; [|cbn [app]; auto].
      cbn [app last_added]. destruct (ident_eq_dec (to_ident s0) (to_ident s)) as [E|E]; [|auto].
      destruct (Hf1 E). auto. }
    destruct Hx as (x & Hx & Hsx & Hl). now apply (R1 Hst x Hx Hsx).
Qed.
