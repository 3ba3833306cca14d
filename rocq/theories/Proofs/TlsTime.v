(** How long the choice of the address takes. *)
From Coq Require Import NArith ZArith List Bool Lia.
From Coq Require Import ZifyBool ZifyNat ZifyN.
From Verif.Model Require Import Bytes Tls.
From Verif.Spec Require Import TlsSpec.
From Verif.Proofs Require Import TlsRace.
Import ListNotations.
Local Open Scope Z_scope.

Section Time.
  Variable l : list attempt.
  Variable k : nat.
  Variable D : Z.
  Hypothesis D0 : 0 <= D.
  Hypothesis HL : forall i a, nth_error l i = Some a -> (i <= k)%nat -> within D a.

  Definition slot (i : nat) : Z := Z.of_nat i * (SECOND + D).
  Lemma slot_le i j : (i <= j)%nat -> slot i <= slot j.
  Proof. intros H. unfold slot. apply Z.mul_le_mono_nonneg_r; [unfold SECOND; lia|lia]. Qed.
  Lemma slot_next i : slot (S i) = slot i + SECOND + D.
  Proof. unfold slot. rewrite Nat2Z.inj_succ. lia. Qed.
  Definition begun (pre : list attempt) (r : race) : nat := (length pre + length (rc_queue r))%nat.

  Record tinv (now : Z) (pre : list attempt) (r : race) : Prop := {
    tv_queue : forall i p, nth_error (rc_queue r) i = Some p -> (length pre + i <= k)%nat ->
      exists f, pg_end p = Some f /\ f <= slot (length pre + i) + D;
    tv_sleep : forall t a, rc_sleep r = Some (t, a) -> t <= slot (begun pre r);
    tv_idle : rc_sleep r = None -> rc_first r = true \/ now + SECOND <= slot (begun pre r);
    tv_now : now <= slot (begun pre r) }.

  Lemma tinv_start now pre r a r' : inv now l pre r -> tinv now pre r -> then_poll now r = (GItem a, r') -> tinv now pre (start now a r').
  Proof.
    intros V [A B C E] T.
    assert (X : rc_queue r' = rc_queue r /\ rc_sleep r' = None /\ sleeping r ++ rc_left r = a :: rc_left r').
    { unfold then_poll in T. destruct (rc_sleep r) as [[t b]|] eqn:S.
      - destruct (t <=? now) eqn:Q; [|discriminate]. injection T as T1 T2. subst b r'. cbn. unfold sleeping. rewrite S. auto.
      - destruct (rc_left r) as [|b q] eqn:Q; [discriminate|]. destruct (rc_first r) eqn:Z; [|discriminate].
        injection T as T1 T2. subst b r'. cbn. unfold sleeping. rewrite S. auto. }
    destruct X as [X1 [X2 X3]].
    assert (N : begun pre (start now a r') = S (begun pre r)).
    { unfold begun, start; cbn. rewrite X1, app_length; cbn. lia. }
    constructor.
    - intros i p I L. unfold start in I; cbn in I. rewrite X1 in I. destruct (Nat.lt_ge_cases i (length (rc_queue r))) as [Y|Y].
      + rewrite nth_error_app1 in I by exact Y. exact (A i p I L).
      + rewrite nth_error_app2 in I by exact Y. destruct (i - length (rc_queue r))%nat as [|j] eqn:Z; [|destruct j; discriminate].
        cbn in I. injection I as I. subst p. cbn. assert (i = length (rc_queue r)) by lia. subst i.
        destruct (HL (length pre + length (rc_queue r)) a) as [d [D1 D2]]; [|exact L|].
        * rewrite (iv_line _ _ _ _ V). unfold line. rewrite X3, nth_error_app2 by lia. rewrite nth_error_app2 by (rewrite map_length; lia).
          rewrite map_length. replace (length pre + length (rc_queue r) - length pre - length (rc_queue r))%nat with 0%nat by lia. reflexivity.
        * rewrite D1. cbn. eexists. split; [reflexivity|]. fold (begun pre r). lia.
    - intros t b S. unfold start in S; cbn in S. congruence.
    - intros _. right. rewrite N, slot_next. lia.
    - rewrite N, slot_next. unfold SECOND. lia.
  Qed.
  Lemma tinv_wait now pre r g r' : tinv now pre r -> then_poll now r = (g, r') -> (forall a, g <> GItem a) -> tinv now pre r'.
  Proof.
    intros V T N. unfold then_poll in T. destruct (rc_sleep r) as [[t b]|] eqn:S.
    - destruct (t <=? now); injection T as T1 T2; subst; [now elim (N b)|exact V].
    - destruct (rc_left r) as [|b q] eqn:Q; [injection T as T1 T2; subst; exact V|].
      destruct (rc_first r) eqn:Z; injection T as T1 T2; subst; [now elim (N b)|].
      destruct V as [A B C E]. constructor; cbn; auto.
      + intros t a H. injection H as H1 H2. subst t a. destruct (C S) as [X|X]; [congruence|exact X].
      + discriminate.
  Qed.
  Lemma tinv_fill now pre : forall n r, inv now l pre r -> tinv now pre r -> (length (rc_queue r) + n <= WIDTH)%nat -> tinv now pre (fill n now r).
  Proof.
    induction n as [|n IH]; intros r V U W; cbn [fill]; [exact U|]. destruct (then_poll now r) as [g r'] eqn:T.
    destruct g as [a| |]; [|eapply tinv_wait; eauto; discriminate|eapply tinv_wait; eauto; discriminate].
    apply IH; [eapply inv_start; eauto; lia|eapply tinv_start; eauto|].
    assert (Q : rc_queue r' = rc_queue r).
    { unfold then_poll in T. destruct (rc_sleep r) as [[t b]|]; [destruct (t <=? now); injection T as T1 T2; now subst|].
      destruct (rc_left r); [injection T as T1 T2; now subst|]. destruct (rc_first r); injection T as T1 T2; now subst. }
    unfold start; cbn. rewrite Q, app_length; cbn. lia.
  Qed.
  Lemma tinv_pop now pre r p q : tinv now pre r -> rc_queue r = p :: q -> tinv now (pre ++ [pg_att p]) (popped q r).
  Proof.
    intros [A B C E] Q. assert (N : begun (pre ++ [pg_att p]) (popped q r) = begun pre r) by (unfold begun, popped; cbn; rewrite Q, app_length; cbn; lia).
    constructor; try (rewrite N); auto. intros i p' I L. unfold popped in I; cbn in I. rewrite app_length in *; cbn [length] in *.
    replace (length pre + 1 + i)%nat with (length pre + S i)%nat in * by lia. apply (A (S i)); [rewrite Q; exact I|exact L].
  Qed.

  Definition held (now : Z) (o : raced) : Prop :=
    match o with RWait r => exists pre, inv now l pre r /\ tinv now pre r /\ waits now r | _ => True end.
  Lemma next_time now : forall fuel pre r, inv now l pre r -> tinv now pre r -> held now (next_socket fuel now r).
  Proof.
    induction fuel as [|f IH]; intros pre r V U; [exact I|]. cbn [next_socket].
    pose proof (inv_fill_all _ _ _ _ V) as V1. pose proof (iv_width _ _ _ _ V) as V3. pose proof (iv_width _ _ _ _ V1) as W3.
    assert (U1 : tinv now pre (fill (WIDTH - length (rc_queue r)) now r)) by (apply tinv_fill; auto; lia).
    pose proof (fill_full now (WIDTH - length (rc_queue r)) r ltac:(lia) W3) as X.
    unfold buffered_poll. set (r1 := fill (WIDTH - length (rc_queue r)) now r) in *. clearbody r1. destruct (rc_queue r1) as [|p q] eqn:Q.
    - destruct X as [X|[[t [a [X1 X2]]]|[X1 X2]]]; [discriminate| |].
      + rewrite X1. replace (match rc_left r1 with [] => TWait | _ => TWait end) with TWait by now destruct (rc_left r1).
        exists pre. split; [exact V1|]. split; [exact U1|]. unfold waits. rewrite Q. eauto.
      + rewrite X1, X2. exact I.
    - destruct (ended now p) eqn:Z.
      + destruct (at_ok (pg_att p)) eqn:O; [exact I|].
        pose proof (iv_faith _ _ _ _ V1) as F. rewrite Q in F. pose proof (ended_time now p (Forall_inv F) Z) as T.
        apply (IH (pre ++ [pg_att p])); [apply inv_pop; [exact V1|exact Q|now split]|now apply tinv_pop].
      + exists pre. split; [exact V1|]. split; [exact U1|]. unfold waits. now rewrite Q.
  Qed.

  Hypothesis good : exists a, nth_error l k = Some a /\ at_ok a = true.
  Lemma not_popped now pre r : inv now l pre r -> (length pre <= k)%nat.
  Proof.
    intros V. destruct good as [a [G O]]. destruct (Nat.le_gt_cases (length pre) k) as [L|L]; [exact L|].
    rewrite (iv_line _ _ _ _ V), nth_error_app1 in G by exact L. apply nth_error_In in G. pose proof (iv_pre _ _ _ _ V) as F.
    rewrite Forall_forall in F. destruct (F a G) as [_ X]. congruence.
  Qed.

  Lemma live_time : forall fuel now pre r, inv now l pre r -> tinv now pre r -> now <= slot k + D ->
    match live fuel now r with LEnd t _ => t <= slot k + D | _ => True end.
  Proof.
    induction fuel as [|f IH]; intros now pre r V U N; [exact I|]. cbn [live].
    pose proof (next_time now (S (todo r)) pre r V U) as H. fold (race_poll now r) in H. destruct (race_poll now r) as [r'|w r'|]; [|exact N|exact I].
    destruct H as [pre' [V' [U' W']]]. destruct (earliest (events now r')) as [t|] eqn:E; [|exact I].
    destruct (ahead_later _ _ _ E) as [L _]. apply earliest_some in E. destruct E as [_ E].
    pose proof (not_popped _ _ _ V') as K.
    assert (X : t <= slot k + D /\ t <= slot (begun pre' r') /\ (rc_sleep r' = None -> t + SECOND <= slot (begun pre' r'))).
    { unfold waits in W'. destruct (rc_queue r') as [|p q] eqn:Q.
      - destruct W' as [x [a [W1 W2]]]. assert (Y : t <= x) by (apply E; apply event_in; split; [exact W2|left; eauto]).
        pose proof (tv_sleep _ _ _ U' x a W1) as Z. assert (B : begun pre' r' = length pre') by (unfold begun; rewrite Q; cbn; lia).
        rewrite B in *. pose proof (slot_le _ _ K). split; [lia|]. split; [lia|]. rewrite W1. discriminate.
      - destruct (tv_queue _ _ _ U' 0%nat p) as [x [F1 F2]]; [now rewrite Q|lia|]. rewrite Nat.add_0_r in F2.
        unfold ended in W'. rewrite F1 in W'.
        assert (Y : t <= x) by (apply E; apply event_in; split; [lia|right; exists p; split; [rewrite Q; now left|exact F1]]).
        pose proof (slot_le _ _ K). assert (B : (S (length pre') <= begun pre' r')%nat) by (unfold begun; rewrite Q; cbn; lia).
        apply slot_le in B. rewrite slot_next in B. unfold SECOND in *. split; [lia|]. split; [lia|]. intros _. lia. }
    destruct X as [X1 [X2 X3]]. apply (IH t pre'); [apply (inv_later now); [lia|exact V']| |exact X1].
    destruct U' as [A B C G]. constructor; auto.
  Qed.
  Lemma run_time : match race_run l with LEnd t _ => t <= slot k + D | _ => True end.
  Proof.
    apply (live_time _ 0 []); [apply inv_new| |].
    - constructor; cbn; auto.
      + intros i p H. destruct i; discriminate.
      + discriminate.
      + unfold slot, begun; cbn. lia.
    - pose proof (slot_le 0 k ltac:(lia)) as X. unfold slot at 1 in X. cbn in X. lia.
  Qed.
End Time.

Lemma verdict_app pre a post : Forall (fun x => at_ok x = false /\ at_time x <> None) pre -> at_ok a = true -> at_time a <> None ->
  verdict (pre ++ a :: post) = Some (Some (at_id a)).
Proof.
  intros F O T. induction F as [|x pre [A B] F IH]; cbn.
  - destruct (at_time a); [now rewrite O|now elim T].
  - rewrite A. destruct (at_time x); [exact IH|now elim B].
Qed.
Theorem connect_time D pre a post : 0 <= D -> Forall (fun x => at_ok x = false /\ within D x) pre -> at_ok a = true -> within D a ->
  exists t, race_run (pre ++ a :: post) = LEnd t (Some (at_id a)) /\ t <= Z.of_nat (length pre) * (SECOND + D) + D.
Proof.
  intros D0 F O W.
  assert (V : verdict (pre ++ a :: post) = Some (Some (at_id a))).
  { apply verdict_app; [|exact O|destruct W as [d [W _]]; congruence]. eapply Forall_impl; [|exact F]. intros x [A [d [B _]]]. split; [exact A|congruence]. }
  pose proof (run_outcome (pre ++ a :: post)) as R.
  pose proof (run_time (pre ++ a :: post) (length pre) D D0) as T.
  assert (T' : match race_run (pre ++ a :: post) with LEnd t _ => t <= slot D (length pre) + D | _ => True end).
  { apply T.
    - intros i x I L. destruct (Nat.lt_ge_cases i (length pre)) as [Y|Y].
      + rewrite nth_error_app1 in I by exact Y. apply nth_error_In in I. rewrite Forall_forall in F. exact (proj2 (F x I)).
      + assert (i = length pre) by lia. subst i. rewrite nth_error_app2, Nat.sub_diag in I by lia. cbn in I. injection I as I. now subst x.
    - exists a. split; [|exact O]. rewrite nth_error_app2, Nat.sub_diag by lia. reflexivity. }
  destruct (race_run (pre ++ a :: post)) as [t w| |]; [|congruence|contradiction].
  exists t. split; [|exact T']. congruence.
Qed.
