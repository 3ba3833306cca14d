(** Invariants of a session. *)
From Coq Require Import NArith List Bool Lia ZArith ZifyBool ZifyNat ZifyN.
From Verif.Model Require Import Bytes Frame Service Control Session.
From Verif.Spec Require Import SessionSpec.
From Verif.Proofs Require Import BytesFacts.
Import ListNotations.
Local Open Scope N_scope.
Ltac Zify.zify_post_hook ::= Z.div_mod_to_equations.

Lemma sess_run_app s es1 es2 :
  sess_run s (es1 ++ es2) =
  let '(s1, o1) := sess_run s es1 in let '(s2, o2) := sess_run s1 es2 in (s2, o1 ++ o2).
Proof.
  revert s. induction es1 as [|e es1 IH]; intros s; cbn [app sess_run].
  - destruct (sess_run s es2); reflexivity.
  - destruct (sess_step s e) as [s1 o1]. rewrite IH. destruct (sess_run s1 es1) as [s2 o2].
    destruct (sess_run s2 es2) as [s3 o3]. now rewrite app_assoc.
Qed.

Lemma sess_run_snoc s es e :
  sess_run s (es ++ [e]) =
  let '(s1, o1) := sess_run s es in let '(s2, o2) := sess_step s1 e in (s2, o1 ++ o2).
Proof.
  rewrite sess_run_app. destruct (sess_run s es) as [s1 o1]. cbn [sess_run].
  destruct (sess_step s1 e) as [s2 o2]. now rewrite app_nil_r.
Qed.

Lemma accepted_app a b : accepted (a ++ b) = accepted a ++ accepted b.
Proof. unfold accepted. now rewrite map_app, concat_app. Qed.
Lemma written_app a b : written (a ++ b) = written a ++ written b.
Proof. unfold written. now rewrite map_app, concat_app. Qed.
Lemma read_in_app a b : read_in (a ++ b) = read_in a ++ read_in b.
Proof. unfold read_in. now rewrite map_app, concat_app. Qed.
Lemma sent_app a b : sent (a ++ b) = sent a ++ sent b.
Proof. unfold sent. now rewrite map_app, concat_app. Qed.
Lemma acked_out_app a b : acked_out (a ++ b) = acked_out a + acked_out b.
Proof.
  induction a as [|x a IH]; [reflexivity|]. unfold acked_out in *. cbn [app fold_right]. rewrite IH. lia.
Qed.
Lemma acked_in_app a b : acked_in (a ++ b) = acked_in a + acked_in b.
Proof.
  induction a as [|x a IH]; [reflexivity|]. unfold acked_in in *. cbn [app fold_right]. rewrite IH. lia.
Qed.

(** A data message of session [sid] of service [svc]. *)
Definition good_msg (svc sid : N) (x : sobs) : Prop :=
  match x with
  | SentData m => m_payload m <> [] /\ m_service m = svc /\ m_session m = N.land sid 16777215
  | _ => True
  end.

(** Effect of one step on the observables: what the step appends and how the state moves. *)
Record step_ok (W : N) (s : sess) (e : sev) (s' : sess) (o : list sobs) : Prop := {
  so_out : s_output s ++ accepted o = written o ++ s_output s';
  so_in : s_input s ++ read_in o = sent o ++ s_input s';
  so_ack : nlen (s_output s) + s_written s + s_outcap s = W -> W < 2 ^ 32 ->
           acked_out o + s_written s' = s_written s + nlen (written o);
  so_bal : nlen (s_output s) + s_written s + s_outcap s = W -> nlen (s_output s') + s_written s' + s_outcap s' = W;
  so_win : nlen (sent o) + s_incap s' <= s_incap s + acked_in [e];
  so_id : s_service s' = s_service s /\ s_session s' = s_session s;
  so_msg : Forall (good_msg (s_service s) (s_session s)) o
}.

Ltac ssimp := cbn [s_service s_session s_input s_output s_incap s_outcap s_written s_mgr_waker s_tr_waker
  s_closed s_error s_phase s_mgr_run s_tr_run s_wait_rd s_wait_wr with_input with_output with_caps with_closed
  with_mgr with_tr with_wait with_phase] in *.

Ltac obs := unfold accepted, written, read_in, sent, acked_out, acked_in;
  cbn [map concat fold_right app m_payload amsg_new]; rewrite ?app_nil_r; rewrite ?nlen_app; change (@nlen N (@nil N)) with 0 in *.

(** A state that differs only in wakers, flags and scheduling. *)
Definition same_data (s s' : sess) : Prop :=
  s_service s' = s_service s /\ s_session s' = s_session s /\ s_input s' = s_input s /\
  s_output s' = s_output s /\ s_incap s' = s_incap s /\ s_outcap s' = s_outcap s /\ s_written s' = s_written s.

Lemma same_refl s : same_data s s. Proof. repeat split. Qed.
Lemma same_trans a b c : same_data a b -> same_data b c -> same_data a c.
Proof. unfold same_data. intuition congruence. Qed.
Lemma same_wake_mgr s : same_data s (wake_mgr s).
Proof. unfold wake_mgr. destruct (s_mgr_waker s); repeat split. Qed.
Lemma same_wake_tr s : same_data s (wake_tr s).
Proof. unfold wake_tr. destruct (s_tr_waker s); repeat split. Qed.
Lemma same_closed s c e : same_data s (with_closed s c e). Proof. repeat split. Qed.
Lemma same_tr s a b : same_data s (with_tr s a b). Proof. repeat split. Qed.
Lemma same_mgr s a b : same_data s (with_mgr s a b). Proof. repeat split. Qed.
Lemma same_wait s a b : same_data s (with_wait s a b). Proof. repeat split. Qed.
Lemma same_phase s p : same_data s (with_phase s p). Proof. repeat split. Qed.
Lemma same_close s : same_data s (sess_close s).
Proof.
  unfold sess_close. eapply same_trans; [apply same_closed|]. eapply same_trans; [apply same_wake_tr|apply same_wake_mgr].
Qed.
Lemma same_set_error s : same_data s (sess_set_error s).
Proof.
  unfold sess_set_error. destruct (s_closed s); [apply same_refl|].
  eapply same_trans; [apply same_closed|apply same_close].
Qed.
Global Hint Resolve same_refl same_wake_mgr same_wake_tr same_closed same_tr same_mgr same_wait same_phase same_close same_set_error : same.

(** Steps composed of silent parts. *)
Lemma step_ok_same W s e s' : same_data s s' -> step_ok W s e s' [].
Proof.
  intros (A & B & C & D & E & F & G).
  constructor; rewrite ?C, ?D, ?E, ?F, ?G; cbn [accepted written read_in sent acked_out map concat fold_right app];
    rewrite ?app_nil_r; try reflexivity; try (intros; unfold nlen at 1; cbn [length]; lia); auto.
Qed.

Lemma step_ok_trans W s1 s2 s3 e o1 o2 :
  step_ok W s1 e s2 o1 -> step_ok W s2 (EDataAck 0) s3 o2 -> step_ok W s1 e s3 (o1 ++ o2).
Proof.
  intros [A1 B1 C1 D1 E1 [F1 F1'] G1] [A2 B2 C2 D2 E2 [F2 F2'] G2].
  constructor.
  - rewrite accepted_app, written_app, app_assoc, A1, <- app_assoc, A2, app_assoc. reflexivity.
  - rewrite read_in_app, sent_app, app_assoc, B1, <- app_assoc, B2, app_assoc. reflexivity.
  - intros Hb Hw. rewrite acked_out_app, written_app, nlen_app. specialize (C1 Hb Hw). specialize (C2 (D1 Hb) Hw). lia.
  - auto.
  - rewrite sent_app, nlen_app. change (acked_in [EDataAck 0]) with 0 in E2. lia.
  - split; congruence.
  - apply Forall_app. split; [exact G1|]. now rewrite <- F1, <- F1'.
Qed.

Lemma read_ok W s r e : match poll_read_input s r with (_, s', o) => step_ok W s e s' o end.
Proof.
  unfold poll_read_input. destruct (s_closed s); [apply step_ok_same; auto with same|].
  destruct (N.leb _ _); [apply step_ok_same; auto with same|].
  destruct r as [|b|].
  - apply step_ok_same. eapply same_trans; [apply same_tr|apply same_wait].
  - destruct b as [|b0 b].
    + apply step_ok_same. eapply same_trans; [apply same_wait|]. eapply same_trans; [apply same_close|].
      destruct (s_input _); auto with same.
    + remember (b0 :: b) as bb.
      set (s1 := with_input (with_wait s false (s_wait_wr s)) (s_input (with_wait s false (s_wait_wr s)) ++ bb)).
      assert (H1 : step_ok W s e s1 [ReadIn bb]).
      { unfold s1. constructor; ssimp; cbn [accepted written read_in sent acked_out map concat fold_right app];
          rewrite ?app_nil_r; try reflexivity; try (intros; unfold nlen at 1; cbn [length]; lia); auto.
        repeat constructor. }
      change ([ReadIn bb]) with ([ReadIn bb] ++ []). eapply step_ok_trans; [exact H1|].
      apply step_ok_same. destruct (s_input s1); auto with same.
  - apply step_ok_same. eapply same_trans; [apply same_wait|]. eapply same_trans; [apply same_set_error|].
    destruct (s_input _); auto with same.
Qed.

Lemma firstn_min_all {A} n (l : list A) : firstn (N.to_nat (N.min n (N.of_nat (length l)))) l = firstn (N.to_nat n) l.
Proof.
  destruct (N.le_gt_cases n (N.of_nat (length l))).
  - now rewrite N.min_l by lia.
  - rewrite N.min_r by lia. rewrite Nat2N.id, firstn_all, firstn_all2 by lia. reflexivity.
Qed.

Lemma write_ok W s w e : match poll_write_output s w with (_, s', o) => step_ok W s e s' o end.
Proof.
  unfold poll_write_output. destruct (s_output s) as [|o0 o'] eqn:Eo.
  { destruct (s_closed s); apply step_ok_same; auto with same. }
  destruct w as [|n|].
  - apply step_ok_same. eapply same_trans; [apply same_tr|apply same_wait].
  - ssimp. rewrite Eo. cbv zeta. remember (o0 :: o') as out.
    set (k := N.to_nat (N.min n (nlen out))).
    match goal with |- step_ok _ _ _ (wake_mgr ?x) _ => set (s2 := x) end.
    assert (H1 : step_ok W s e s2 [Wrote (firstn k out)]).
    { unfold s2. constructor; ssimp; obs; rewrite ?Eo.
      - now rewrite firstn_skipn.
      - reflexivity.
      - intros _ _. lia.
      - intros H. rewrite <- (firstn_skipn k out) in H. rewrite nlen_app in H. lia.
      - lia.
      - auto.
      - repeat constructor. }
    change ([Wrote (firstn k out)]) with ([Wrote (firstn k out)] ++ []). eapply step_ok_trans; [exact H1|].
    apply step_ok_same. auto with same.
  - apply step_ok_same. eapply same_trans; [apply same_wait|apply same_set_error].
Qed.

Lemma push_ok W s p e : match sess_push s p with (s', o) => step_ok W s e s' o end.
Proof.
  unfold sess_push. destruct (s_closed s); [apply step_ok_same; auto with same|].
  destruct (N.ltb (s_outcap s) (nlen p)) eqn:E; [apply step_ok_same; auto with same|]. apply N.ltb_ge in E.
  cbv zeta. set (s2 := with_output _ _).
  assert (H1 : step_ok W s e s2 [Accepted p]).
  { unfold s2. constructor; ssimp; obs.
    - reflexivity.
    - reflexivity.
    - intros _ _. lia.
    - lia.
    - lia.
    - auto.
    - repeat constructor. }
  change ([Accepted p]) with ([Accepted p] ++ []). eapply step_ok_trans; [exact H1|].
  apply step_ok_same. destruct (s_output s2); auto with same.
Qed.

Lemma take_ok W s f e : match sess_take f s with (_, s', _, o) => step_ok W s e s' o end.
Proof.
  unfold sess_take. destruct (N.ltb 0 (s_written s)) eqn:Ew.
  { cbn [next_id]. constructor; ssimp; obs.
    - reflexivity.
    - reflexivity.
    - intros H HW. unfold mk_data_ack, ack_of. cbn [cm_body]. unfold u32. rewrite N.mod_small; lia.
    - lia.
    - lia.
    - auto.
    - repeat constructor. }
  cbv zeta. set (tk := N.min (s_incap s) (nlen (s_input s))).
  set (s2 := with_input _ _).
  set (s3 := if N.ltb (nlen (s_input s2)) BUFFER_CAPACITY then wake_tr s2 else s2).
  assert (Hsame : same_data s2 s3) by (unfold s3; destruct (N.ltb (nlen (s_input s2)) BUFFER_CAPACITY); [apply same_wake_tr|apply same_refl]).
  assert (Hlen : nlen (firstn (N.to_nat tk) (s_input s)) = tk).
  { unfold nlen. rewrite firstn_length. unfold tk, nlen. lia. }
  assert (H2 : forall data, data = firstn (N.to_nat tk) (s_input s) -> data <> [] ->
     step_ok W s e s2 [SentData (amsg_new (s_service s) (s_session s) data)]).
  { intros data Hd Hne. unfold s2. constructor; ssimp; obs.
    - reflexivity.
    - rewrite Hd, firstn_skipn. reflexivity.
    - lia.
    - lia.
    - rewrite Hd, Hlen. unfold tk. lia.
    - auto.
    - constructor; [|constructor]. cbn. auto. }
  assert (H2' : firstn (N.to_nat tk) (s_input s) = [] -> step_ok W s e s2 []).
  { intros Hd. unfold s2. constructor; ssimp; obs.
    - reflexivity.
    - rewrite <- (firstn_skipn (N.to_nat tk) (s_input s)) at 1. rewrite Hd. reflexivity.
    - lia.
    - lia.
    - lia.
    - auto.
    - constructor. }
  destruct (firstn (N.to_nat tk) (s_input s)) as [|d0 d] eqn:Ed.
  - specialize (H2' eq_refl).
    assert (H3 : step_ok W s e s3 []) by (change (@nil sobs) with (@nil sobs ++ []); eapply step_ok_trans; [exact H2'|now apply step_ok_same]).
    destruct (s_closed s3); [destruct (s_error s3)|]; try exact H3;
      (change (@nil sobs) with (@nil sobs ++ []); eapply step_ok_trans; [exact H3|apply step_ok_same; auto with same]).
  - destruct Hsame as (Hsv & Hss & Hrest).
    assert (E1 : s_service s3 = s_service s) by (rewrite Hsv; reflexivity).
    assert (E2 : s_session s3 = s_session s) by (rewrite Hss; reflexivity).
    rewrite E1, E2. specialize (H2 _ eq_refl ltac:(discriminate)).
    match type of H2 with step_ok _ _ _ _ ?o => change o with (o ++ []) end.
    eapply step_ok_trans; [exact H2|]. apply step_ok_same. split; [exact Hsv|]. split; [exact Hss|]. exact Hrest.
Qed.

Lemma transport_ok W s r w e : match transport_poll s r w with (s', o) => step_ok W s e s' o end.
Proof.
  unfold transport_poll. destruct (s_phase s); try (apply step_ok_same; auto with same).
  cbv zeta. set (s0 := with_tr s (s_tr_waker s) false).
  destruct (s_closed s0).
  { apply step_ok_same. unfold s0. eapply same_trans; [apply same_tr|apply same_phase]. }
  pose proof (read_ok W s0 r (EDataAck 0)) as Hr. destruct (poll_read_input s0 r) as [[rr s1] o1].
  pose proof (write_ok W s1 w (EDataAck 0)) as Hw. destruct (poll_write_output s1 w) as [[rw s2] o2].
  assert (H : step_ok W s e s2 (o1 ++ o2)).
  { change (o1 ++ o2) with ([] ++ o1 ++ o2). eapply step_ok_trans; [|eapply step_ok_trans]; [|exact Hr|exact Hw].
    apply step_ok_same. unfold s0. auto with same. }
  destruct (rr || rw); [|exact H].
  rewrite <- (app_nil_r (o1 ++ o2)). eapply step_ok_trans; [exact H|]. apply step_ok_same. auto with same.
Qed.

Lemma sess_step_ok W s e : match sess_step s e with (s', o) => step_ok W s e s' o end.
Proof.
  destruct e; cbn [sess_step].
  - unfold sess_data_ack. set (s1 := with_caps _ _ _ _).
    assert (H1 : step_ok W s (EDataAck len) s1 []).
    { unfold s1. constructor; ssimp; obs; try reflexivity; try lia; auto. }

    change (@nil sobs) with (@nil sobs ++ []). eapply step_ok_trans; [exact H1|apply step_ok_same; apply same_wake_mgr].
  - apply push_ok.
  - pose proof (take_ok W s f (ETake f)) as H. destruct (sess_take f s) as [[[? ?] ?] ?]. exact H.
  - apply step_ok_same, same_close.
  - destruct (s_phase s); apply step_ok_same; auto with same.
  - destruct (s_phase s); apply step_ok_same; auto with same.
    eapply same_trans; [apply same_set_error|apply same_phase].
  - apply transport_ok.
  - destruct (s_wait_rd s); apply step_ok_same; auto with same.
    eapply same_trans; [apply same_wait|apply same_tr].
  - destruct (s_wait_wr s); apply step_ok_same; auto with same.
    eapply same_trans; [apply same_wait|apply same_tr].
Qed.

(** The send window moves by exactly what was sent and acknowledged. *)
Lemma same_incap s s' : same_data s s' -> s_incap s' = s_incap s.
Proof. intros H. apply H. Qed.

Lemma incap_step s e :
  match sess_step s e with (s', o) =>
    nlen (sent o) + s_incap s' = match e with EDataAck n => (s_incap s + n) mod 2 ^ 64 | _ => s_incap s end end.
Proof.
  destruct e; cbn [sess_step].
  - unfold sess_data_ack. rewrite (same_incap _ _ (same_wake_mgr _)). reflexivity.
  - unfold sess_push. destruct (s_closed s); [reflexivity|].
    destruct (N.ltb _ _); [rewrite (same_incap _ _ (same_set_error _)); reflexivity|].
    cbv zeta. destruct (s_output (with_output _ _)); [reflexivity|].
    unfold wake_tr. destruct (s_tr_waker (with_output _ _)); reflexivity.
  - unfold sess_take. destruct (N.ltb 0 (s_written s)); [reflexivity|]. cbv zeta.
    set (tk := N.min (s_incap s) (nlen (s_input s))). set (s2 := with_input _ _).
    set (s3 := if N.ltb (nlen (s_input s2)) BUFFER_CAPACITY then wake_tr s2 else s2).
    assert (E3 : s_incap s3 = s_incap s - tk).
    { unfold s3, wake_tr. destruct (N.ltb _ _); [|reflexivity]. destruct (s_tr_waker s2); reflexivity. }
    assert (Hlen : nlen (firstn (N.to_nat tk) (s_input s)) = tk).
    { unfold nlen. rewrite firstn_length. unfold tk, nlen. lia. }
    destruct (firstn (N.to_nat tk) (s_input s)) as [|d0 d].
    + change (nlen (@nil N)) with 0 in Hlen.
      destruct (s_closed s3); [destruct (s_error s3)|]; ssimp; change (nlen (sent [])) with 0; rewrite E3; lia.
    + unfold sent. cbn [map concat m_payload amsg_new]. rewrite app_nil_r, Hlen, E3. lia.
  - rewrite (same_incap _ _ (same_close _)). reflexivity.
  - destruct (s_phase s); reflexivity.
  - destruct (s_phase s); try reflexivity. ssimp. rewrite (same_incap _ _ (same_set_error _)). reflexivity.
  - unfold transport_poll. destruct (s_phase s); try reflexivity. cbv zeta.
    destruct (s_closed _); [reflexivity|]. set (s0 := with_tr s (s_tr_waker s) false).
    assert (H1 : forall x, let '(_, s', o) := poll_read_input x r in s_incap s' = s_incap x /\ sent o = []).
    { intros x. unfold poll_read_input. destruct (s_closed x); [now split|].
      destruct (N.leb _ _); [now split|]. destruct r as [|b|]; [now split| |].
      - destruct b as [|b0 b].
        + split; [|reflexivity]. cbv zeta.
          destruct (s_input (sess_close _)); rewrite ?(same_incap _ _ (same_wake_mgr _)), (same_incap _ _ (same_close _)); reflexivity.
        + split; [|reflexivity]. cbv zeta. destruct (s_input (with_input _ _)); [reflexivity|].
          now rewrite (same_incap _ _ (same_wake_mgr _)).
      - split; [|reflexivity]. cbv zeta.
        destruct (s_input (sess_set_error _)); rewrite ?(same_incap _ _ (same_wake_mgr _)), (same_incap _ _ (same_set_error _)); reflexivity. }
    assert (H2 : forall x, let '(_, s', o) := poll_write_output x w in s_incap s' = s_incap x /\ sent o = []).
    { intros x. unfold poll_write_output. destruct (s_output x); [destruct (s_closed x); now split|].
      destruct w as [|k|]; [now split| |].
      - split; [|reflexivity]. cbv zeta. now rewrite (same_incap _ _ (same_wake_mgr _)).
      - split; [|reflexivity]. now rewrite (same_incap _ _ (same_set_error _)). }
    specialize (H1 s0). destruct (poll_read_input s0 r) as [[rr s1] o1].
    specialize (H2 s1). destruct (poll_write_output s1 w) as [[rw s2] o2].
    rewrite sent_app. destruct H1 as [H1 ->], H2 as [H2 ->]. change (nlen ([] ++ [])) with 0.
    destruct (rr || rw); ssimp; rewrite H2, H1; reflexivity.
  - destruct (s_wait_rd s); reflexivity.
  - destruct (s_wait_wr s); reflexivity.
Qed.

(** ** Invariant of a whole run *)
Record run_ok (svc sid W : N) (es : list sev) (s : sess) (o : list sobs) : Prop := {
  ro_out : accepted o = written o ++ s_output s;
  ro_in : read_in o = sent o ++ s_input s;
  ro_ack : W < 2 ^ 32 -> acked_out o + s_written s = nlen (written o);
  ro_bal : nlen (s_output s) + s_written s + s_outcap s = W;
  ro_win : nlen (sent o) + s_incap s <= W + acked_in es;
  ro_exact : W + acked_in es < 2 ^ 64 -> nlen (sent o) + s_incap s = W + acked_in es;
  ro_id : s_service s = svc /\ s_session s = sid;
  ro_msg : Forall (good_msg svc sid) o
}.

Lemma run_ok_holds svc sid W es :
  match sess_run (sess_new svc sid W) es with (s, o) => run_ok svc sid W es s o end.
Proof.
  induction es as [|e es IH] using rev_ind.
  - cbn [sess_run]. constructor; cbn; try reflexivity; try lia; auto.
  - rewrite sess_run_snoc. destruct (sess_run (sess_new svc sid W) es) as [s1 o1].
    pose proof (sess_step_ok W s1 e) as H. destruct (sess_step s1 e) as [s2 o2] eqn:Hst.
    destruct IH as [A B C D E E' [F1 F2] G]. pose proof (incap_step s1 e) as g'. rewrite Hst in g'. destruct H as [a b c d g [f1 f2] h].
    constructor.
    + rewrite accepted_app, written_app, A, <- app_assoc, a, app_assoc. reflexivity.
    + rewrite read_in_app, sent_app, B, <- app_assoc, b, app_assoc. reflexivity.
    + intros HW. rewrite acked_out_app, written_app, nlen_app. specialize (C HW). specialize (c D HW). lia.
    + auto.
    + rewrite sent_app, nlen_app, acked_in_app. lia.
    + rewrite sent_app, nlen_app, acked_in_app. intros HB. specialize (E' ltac:(lia)). change (acked_in [e]) with (match e with EDataAck n => n | _ => 0 end + 0) in *.
      destruct e; lia.
    + split; congruence.
    + apply Forall_app. split; [exact G|]. now rewrite <- F1, <- F2.
Qed.

(** ** Wake-ups *)

(** The connection task sleeps only on a session with nothing to report. *)
Definition mgr_inv (s : sess) : Prop :=
  s_mgr_run s = false ->
  s_mgr_waker s = true /\ s_written s = 0 /\ N.min (s_incap s) (nlen (s_input s)) = 0 /\ s_closed s = false.

(** The transport task sleeps only while waiting for the socket or for the other side. *)
Definition tr_inv (s : sess) : Prop :=
  (s_phase s = TConnecting -> s_tr_run s = true) /\
  (s_phase s = TRunning -> s_tr_run s = false ->
   s_tr_waker s = true /\ s_closed s = false /\
   (BUFFER_CAPACITY <= nlen (s_input s) \/ s_wait_rd s = true) /\
   (s_output s = [] \/ s_wait_wr s = true)).

Ltac wk := unfold mgr_inv, tr_inv, wake_mgr, wake_tr in *; ssimp.
Ltac brk := repeat match goal with
  | |- context [if ?b then _ else _] => destruct b eqn:?; ssimp
  | H : context [if ?b then _ else _] |- _ => destruct b eqn:?; ssimp end.

Lemma wake_mgr_inv s : (s_mgr_run s = false -> s_mgr_waker s = true) -> mgr_inv (wake_mgr s).
Proof. intros H. wk. destruct (s_mgr_waker s) eqn:E; ssimp; intros Hr; [discriminate|]. specialize (H Hr). congruence. Qed.

Lemma wake_tr_inv s :
  (s_phase s = TConnecting -> s_tr_run s = true) ->
  (s_phase s = TRunning -> s_tr_run s = false -> s_tr_waker s = true) -> tr_inv (wake_tr s).
Proof.
  intros H0 H. wk. destruct (s_tr_waker s) eqn:E; ssimp; split; auto; intros Hp Hr; [discriminate|].
  specialize (H Hp Hr). congruence.
Qed.

Lemma mgr_inv_ext s s' :
  mgr_inv s -> s_mgr_run s' = s_mgr_run s -> s_mgr_waker s' = s_mgr_waker s -> s_written s' = s_written s ->
  s_incap s' = s_incap s -> s_input s' = s_input s -> s_closed s' = s_closed s -> mgr_inv s'.
Proof. unfold mgr_inv. intros H A B C D E F. rewrite A, B, C, D, E, F. exact H. Qed.
Lemma tr_inv_ext s s' :
  tr_inv s -> s_phase s' = s_phase s -> s_tr_run s' = s_tr_run s -> s_tr_waker s' = s_tr_waker s ->
  s_closed s' = s_closed s -> s_input s' = s_input s -> s_wait_rd s' = s_wait_rd s -> s_output s' = s_output s ->
  s_wait_wr s' = s_wait_wr s -> tr_inv s'.
Proof. unfold tr_inv. intros H A B C D E F G I. rewrite A, B, C, D, E, F, G, I. exact H. Qed.

(** Fields not touched by waking. *)
Lemma wake_mgr_fields s :
  s_phase (wake_mgr s) = s_phase s /\ s_tr_run (wake_mgr s) = s_tr_run s /\ s_tr_waker (wake_mgr s) = s_tr_waker s /\
  s_closed (wake_mgr s) = s_closed s /\ s_wait_rd (wake_mgr s) = s_wait_rd s /\ s_wait_wr (wake_mgr s) = s_wait_wr s /\
  s_error (wake_mgr s) = s_error s.
Proof. unfold wake_mgr. destruct (s_mgr_waker s); repeat split. Qed.
Lemma wake_tr_fields s :
  s_phase (wake_tr s) = s_phase s /\ s_mgr_run (wake_tr s) = s_mgr_run s /\ s_mgr_waker (wake_tr s) = s_mgr_waker s /\
  s_closed (wake_tr s) = s_closed s /\ s_wait_rd (wake_tr s) = s_wait_rd s /\ s_wait_wr (wake_tr s) = s_wait_wr s /\
  s_error (wake_tr s) = s_error s.
Proof. unfold wake_tr. destruct (s_tr_waker s); repeat split. Qed.

Definition winv (s : sess) : Prop := mgr_inv s /\ tr_inv s.

(** Weaker facts that hold also in the middle of a transport poll: a sleeping task has a waker. *)
Definition mgr_armed (s : sess) : Prop := s_mgr_run s = false -> s_mgr_waker s = true.

Lemma mgr_inv_armed s : mgr_inv s -> mgr_armed s.
Proof. unfold mgr_inv, mgr_armed. intros H Hr. now apply H. Qed.

(** A fully case-split proof: destruct the record. *)
Ltac crush_state s := destruct s as [sv si inp out ic oc wn mw tw cl er ph mr tr wr0 ww].

Lemma closed_winv s : winv s -> winv (sess_close s).
Proof.
  intros [Hm Ht]. crush_state s. unfold winv, sess_close. wk.
  destruct tw, mw; ssimp; repeat split; auto; intros; try discriminate; try (apply Ht; assumption);
    try (destruct (Hm ltac:(assumption)) as (? & ?); discriminate);
    try (destruct Ht as [_ Ht]; destruct (Ht ltac:(assumption) ltac:(assumption)) as (? & ?); discriminate).
Qed.

Lemma set_error_winv s : winv s -> winv (sess_set_error s).
Proof.
  intros H. unfold sess_set_error. destruct (s_closed s) eqn:E; [exact H|].
  apply closed_winv. destruct H as [Hm Ht]. split.
  - eapply mgr_inv_ext; [exact Hm|ssimp; try reflexivity; auto..].
  - eapply tr_inv_ext; [exact Ht|ssimp; try reflexivity; auto..].
Qed.

Lemma push_winv s p : winv s -> winv (fst (sess_push s p)).
Proof.
  intros H. unfold sess_push. destruct (s_closed s) eqn:Ec; [exact H|].
  destruct (N.ltb _ _); [apply set_error_winv; exact H|]. cbn [fst]. destruct H as [Hm Ht].
  crush_state s. wk. unfold winv. wk. subst cl. split.
  - destruct (out ++ p); ssimp; [exact Hm|]. destruct tw; ssimp; exact Hm.
  - destruct (out ++ p) eqn:E; ssimp.
    + split; [apply Ht|]. intros Hp Hr. destruct Ht as [_ Ht]. destruct (Ht Hp Hr) as (A & B & C & D). auto.
    + destruct tw; ssimp; (split; [tauto|]); intros Hp Hr; [discriminate|].
      destruct Ht as [_ Ht]. destruct (Ht Hp Hr) as (A & _). discriminate.
Qed.

Lemma data_ack_winv s n : winv s -> winv (sess_data_ack s n).
Proof.
  intros [Hm Ht]. unfold sess_data_ack. split.
  - apply wake_mgr_inv. intros Hr. now apply Hm.
  - eapply tr_inv_ext; [exact Ht|..]; unfold wake_mgr; ssimp; destruct (s_mgr_waker s); reflexivity.
Qed.

Lemma take_winv s f : winv s -> winv (snd (fst (fst (sess_take f s)))).
Proof.
  intros [Hm Ht]. unfold sess_take. destruct (N.ltb 0 (s_written s)) eqn:Ew.
  { cbn [next_id fst snd]. split.
    - unfold mgr_inv in *. ssimp. intros Hr. destruct (Hm Hr) as (A & B & C & D). rewrite B in Ew. discriminate.
    - eapply tr_inv_ext; [exact Ht|reflexivity..]. }
  cbv zeta. set (tk := N.min (s_incap s) (nlen (s_input s))).
  set (s2 := with_input _ _).
  set (s3 := if N.ltb (nlen (s_input s2)) BUFFER_CAPACITY then wake_tr s2 else s2).
  assert (Hm2 : s_mgr_run s2 = false -> s_mgr_waker s2 = true /\ s_written s2 = 0 /\ tk = 0 /\ s_closed s2 = false).
  { intros Hr. exact (Hm Hr). }
  assert (Ht3 : tr_inv s3).
  { unfold s3. destruct (N.ltb (nlen (s_input s2)) BUFFER_CAPACITY) eqn:E.
    - apply wake_tr_inv; [apply Ht|]. intros Hp Hr. destruct Ht as [_ Ht]. now apply Ht.
    - apply N.ltb_ge in E. split; [apply Ht|]. intros Hp Hr. destruct Ht as [_ Ht].
      destruct (Ht Hp Hr) as (A & B & _ & D). repeat split; auto. }
  assert (E3 : s_mgr_run s3 = s_mgr_run s2 /\ s_mgr_waker s3 = s_mgr_waker s2 /\ s_closed s3 = s_closed s2 /\
    s_written s3 = s_written s2 /\ s_incap s3 = s_incap s2 /\ s_input s3 = s_input s2).
  { unfold s3, wake_tr. destruct (N.ltb (nlen (s_input s2)) BUFFER_CAPACITY); [|repeat split].
    destruct (s_tr_waker s2); repeat split. }
  destruct E3 as (E3a & E3b & E3c & E3d & E3e & E3f).
  assert (Hlen : nlen (firstn (N.to_nat tk) (s_input s)) = tk).
  { unfold nlen. rewrite firstn_length. unfold tk, nlen. lia. }
  assert (Hm3 : mgr_inv s3).
  { unfold mgr_inv. rewrite E3a, E3b, E3c, E3d, E3e, E3f. intros Hr. destruct (Hm2 Hr) as (A & B & C & D).
    repeat split; auto. unfold s2. ssimp. unfold nlen. rewrite skipn_length. unfold tk, nlen in *. lia. }
  destruct (firstn (N.to_nat tk) (s_input s)) as [|d0 d] eqn:Ed; [|cbn [fst snd]; now split].
  destruct (s_closed s3) eqn:Ec3.
  - destruct (s_error s3); cbn [fst snd]; split; try assumption.
    + unfold mgr_inv in *. ssimp. intros Hr. specialize (Hm3 Hr). rewrite Ec3 in *. exact Hm3.
    + eapply tr_inv_ext; [exact Ht3|..]; try reflexivity. ssimp. exact Ec3 || auto.
  - cbn [fst snd]. split.
    + unfold mgr_inv. ssimp. intros _. rewrite E3d, E3e, E3f. split; [reflexivity|].
      split; [unfold s2; ssimp; apply N.ltb_ge in Ew; lia|]. split; [|exact Ec3].
      unfold nlen in Hlen. cbn [length] in Hlen. unfold s2. ssimp. unfold nlen. rewrite skipn_length. unfold tk, nlen in *. lia.
    + eapply tr_inv_ext; [exact Ht3|reflexivity..].
Qed.

(** What a read attempt leaves behind when it was not ready. *)
Lemma read_winv s r :
  mgr_inv s -> s_closed s = false ->
  let '(ready, s', _) := poll_read_input s r in
  mgr_inv s' /\ s_phase s' = s_phase s /\ s_output s' = s_output s /\ s_wait_wr s' = s_wait_wr s /\
  (ready = false -> s_tr_waker s' = true /\ s_closed s' = false /\ s_tr_run s' = s_tr_run s /\
     (BUFFER_CAPACITY <= nlen (s_input s') \/ s_wait_rd s' = true)).
Proof.
  intros Hm Hc. unfold poll_read_input. rewrite Hc.
  destruct (N.leb BUFFER_CAPACITY (nlen (s_input s))) eqn:E.
  { apply N.leb_le in E. crush_state s. unfold mgr_inv in *. ssimp. repeat split; auto; try (now apply Hm). }
  destruct r as [|b|].
  - crush_state s. unfold mgr_inv in *. ssimp. repeat split; auto; try (now apply Hm).
  - destruct b as [|b0 b].
    + assert (Hcl : mgr_inv (sess_close (with_wait s false (s_wait_wr s)))).
      { crush_state s. unfold sess_close, mgr_inv in *. wk. destruct tw, mw; ssimp; intros Hr; try discriminate;
          destruct (Hm Hr) as (? & ?); discriminate. }
      split; [|split; [|split; [|split; [|discriminate]]]].
      * destruct (s_input (sess_close _)); [exact Hcl|]. apply wake_mgr_inv. now apply mgr_inv_armed.
      * crush_state s. unfold sess_close. wk. destruct tw, mw, inp; ssimp; reflexivity.
      * crush_state s. unfold sess_close. wk. destruct tw, mw, inp; ssimp; reflexivity.
      * crush_state s. unfold sess_close. wk. destruct tw, mw, inp; ssimp; reflexivity.
    + crush_state s. wk. destruct (inp ++ b0 :: b) eqn:Ei; [destruct inp; discriminate|].
      destruct mw; ssimp; (split; [|split; [|split; [|split; [|discriminate]]]]; try reflexivity; intros Hr;
        [discriminate || (destruct (Hm Hr) as (? & ?); discriminate)]).
  - assert (Hcl : mgr_inv (sess_set_error (with_wait s false (s_wait_wr s)))).
    { crush_state s. unfold sess_set_error, sess_close, mgr_inv in *. wk. subst cl. ssimp.
      destruct tw, mw; ssimp; intros Hr; try discriminate; destruct (Hm Hr) as (? & ?); discriminate. }
    split; [|split; [|split; [|split; [|discriminate]]]].
    + destruct (s_input (sess_set_error _)); [exact Hcl|]. apply wake_mgr_inv. now apply mgr_inv_armed.
    + crush_state s. unfold sess_set_error, sess_close. wk. subst cl. ssimp. destruct tw, mw, inp; ssimp; reflexivity.
    + crush_state s. unfold sess_set_error, sess_close. wk. subst cl. ssimp. destruct tw, mw, inp; ssimp; reflexivity.
    + crush_state s. unfold sess_set_error, sess_close. wk. subst cl. ssimp. destruct tw, mw, inp; ssimp; reflexivity.
Qed.

Lemma write_winv s w :
  mgr_inv s ->
  let '(ready, s', _) := poll_write_output s w in
  mgr_inv s' /\ s_phase s' = s_phase s /\
  (ready = false -> s_tr_waker s' = true /\ s_closed s' = s_closed s /\ s_tr_run s' = s_tr_run s /\
     s_input s' = s_input s /\ s_wait_rd s' = s_wait_rd s /\
     (s_output s' = [] \/ s_wait_wr s' = true)).
Proof.
  intros Hm. unfold poll_write_output. destruct (s_output s) as [|o0 o] eqn:Eo.
  { destruct (s_closed s) eqn:Ec.
    - split; [exact Hm|]. split; [reflexivity|]. intros Hx; discriminate.
    - crush_state s. unfold mgr_inv in *. ssimp. subst. repeat split; auto; try (now apply Hm). }
  destruct w as [|n|].
  - crush_state s. unfold mgr_inv in *. ssimp. repeat split; auto; try (now apply Hm).
  - cbv zeta. split; [|split; [|discriminate]].
    + apply wake_mgr_inv. intros Hr. ssimp. now apply Hm.
    + unfold wake_mgr. ssimp. destruct (s_mgr_waker s); reflexivity.
  - split; [|split; [|discriminate]].
    + unfold sess_set_error. destruct (s_closed _) eqn:Ec; [exact Hm|]. unfold sess_close.
      apply wake_mgr_inv. intros Hr. unfold wake_tr in *. ssimp. destruct (s_tr_waker s); ssimp; now apply Hm.
    + crush_state s. unfold sess_set_error, sess_close. wk. destruct cl, tw, mw; ssimp; reflexivity.
Qed.

Lemma transport_winv s r w : winv s -> winv (fst (transport_poll s r w)).
Proof.
  intros [Hm Ht]. unfold transport_poll. destruct (s_phase s) eqn:Ep; try (cbn [fst]; now split).
  cbv zeta. set (s0 := with_tr s (s_tr_waker s) false).
  assert (Hm0 : mgr_inv s0) by (eapply mgr_inv_ext; [exact Hm|reflexivity..]).
  destruct (s_closed s0) eqn:Ec.
  { cbn [fst]. split; [eapply mgr_inv_ext; [exact Hm0|reflexivity..]|].
    unfold tr_inv. ssimp. split; intros; discriminate. }
  pose proof (read_winv s0 r Hm0 Ec) as Hr. destruct (poll_read_input s0 r) as [[rr s1] o1].
  destruct Hr as (Hm1 & Hp1 & Ho1 & Hw1 & Hr1).
  pose proof (write_winv s1 w Hm1) as Hw. destruct (poll_write_output s1 w) as [[rw s2] o2].
  destruct Hw as (Hm2 & Hp2 & Hr2).
  cbn [fst]. destruct (rr || rw) eqn:Err.
  - split; [eapply mgr_inv_ext; [exact Hm2|reflexivity..]|]. unfold tr_inv. ssimp. split; intros; [reflexivity|discriminate].
  - apply orb_false_elim in Err as [-> ->].
    destruct (Hr1 eq_refl) as (A & B & C & D). destruct (Hr2 eq_refl) as (A' & B' & C' & D' & E' & F').
    split; [exact Hm2|]. split.
    + rewrite Hp2, Hp1. unfold s0. ssimp. rewrite Ep. discriminate.
    + intros _ _. rewrite B', D', E'. auto.
Qed.

Lemma step_winv s e : winv s -> winv (fst (sess_step s e)).
Proof.
  intros H. destruct e; cbn [sess_step].
  - now apply data_ack_winv.
  - now apply push_winv.
  - pose proof (take_winv s f H) as Ht. destruct (sess_take f s) as [[[? ?] ?] ?]. exact Ht.
  - now apply closed_winv.
  - destruct (s_phase s) eqn:Ep; try exact H. cbn [fst]. destruct H as [Hm Ht]. split.
    + eapply mgr_inv_ext; [exact Hm|reflexivity..].
    + unfold tr_inv in *. ssimp. split; [discriminate|]. intros _ Hr. destruct Ht as [Ht _]. rewrite (Ht Ep) in Hr. discriminate.
  - destruct (s_phase s) eqn:Ep; try exact H. cbn [fst].
    destruct (set_error_winv s H) as [Hm Ht]. split.
    + eapply mgr_inv_ext; [exact Hm|reflexivity..].
    + unfold tr_inv. ssimp. split; intros; discriminate.
  - now apply transport_winv.
  - destruct (s_wait_rd s); [|exact H]. destruct H as [Hm Ht]. cbn [fst]. split.
    + eapply mgr_inv_ext; [exact Hm|reflexivity..].
    + unfold tr_inv. ssimp. split; intros; [reflexivity|discriminate].
  - destruct (s_wait_wr s); [|exact H]. destruct H as [Hm Ht]. cbn [fst]. split.
    + eapply mgr_inv_ext; [exact Hm|reflexivity..].
    + unfold tr_inv. ssimp. split; intros; [reflexivity|discriminate].
Qed.

Lemma winv_new svc sid W : winv (sess_new svc sid W).
Proof. unfold winv, mgr_inv, tr_inv, sess_new. ssimp. repeat split; intros; discriminate. Qed.

Lemma run_winv s es : winv s -> winv (fst (sess_run s es)).
Proof.
  revert s. induction es as [|e es IH]; intros s H; [exact H|]. cbn [sess_run].
  pose proof (step_winv s e H) as H1. destruct (sess_step s e) as [s1 o1]. cbn [fst] in H1.
  specialize (IH s1 H1). destruct (sess_run s1 es) as [s2 o2]. exact IH.
Qed.

(** ** Consequences *)

(** Sleeping connection task: polling the session would give nothing. *)
Lemma mgr_sleep_pending s f : mgr_inv s -> s_mgr_run s = false -> fst (fst (fst (sess_take f s))) = TkPending.
Proof.
  intros Hm Hr. destruct (Hm Hr) as (A & B & C & D). unfold sess_take. rewrite B. cbn [N.ltb N.compare].
  cbv zeta. rewrite C. cbn [N.to_nat firstn]. set (s2 := with_input _ _).
  assert (E : s_closed (if N.ltb (nlen (s_input s2)) BUFFER_CAPACITY then wake_tr s2 else s2) = false).
  { unfold wake_tr. destruct (N.ltb _ _); [|exact D]. destruct (s_tr_waker s2); exact D. }
  rewrite E. reflexivity.
Qed.

(** A session that reports its end has an empty input buffer or an exhausted window. *)
Lemma take_end s f :
  fst (fst (fst (sess_take f s))) = TkEnd \/ fst (fst (fst (sess_take f s))) = TkError ->
  s_input s = [] \/ s_incap s = 0.
Proof.
  unfold sess_take. destruct (N.ltb 0 (s_written s)); [cbn [next_id fst]; intros [H|H]; discriminate|].
  cbv zeta. destruct (firstn _ (s_input s)) as [|d0 d] eqn:E; [|cbn [fst]; intros [H|H]; discriminate].
  intros _. assert (Hl : length (firstn (N.to_nat (N.min (s_incap s) (nlen (s_input s)))) (s_input s)) = 0%nat) by now rewrite E.
  rewrite firstn_length in Hl. destruct (s_input s) as [|x l]; [now left|]. right.
  unfold nlen in Hl. cbn [length] in Hl. lia.
Qed.

(** A closed session stays closed, and its transport neither reads nor writes; it accepts nothing. *)
Definition quiet (o : list sobs) : Prop := accepted o = [] /\ written o = [] /\ read_in o = [].

Lemma closed_wake_mgr s : s_closed (wake_mgr s) = s_closed s.
Proof. apply wake_mgr_fields. Qed.
Lemma closed_wake_tr s : s_closed (wake_tr s) = s_closed s.
Proof. apply wake_tr_fields. Qed.
Lemma closed_close s : s_closed (sess_close s) = true.
Proof. unfold sess_close. now rewrite closed_wake_mgr, closed_wake_tr. Qed.
Lemma closed_set_error s : s_closed (sess_set_error s) = true.
Proof. unfold sess_set_error. destruct (s_closed s) eqn:E; [exact E|apply closed_close]. Qed.

Lemma closed_step s e :
  s_closed s = true -> match sess_step s e with (s', o) => s_closed s' = true /\ quiet o end.
Proof.
  intros Hc. unfold quiet. destruct e; cbn [sess_step].
  - unfold sess_data_ack. rewrite closed_wake_mgr. ssimp. now repeat split.
  - unfold sess_push. rewrite Hc. now repeat split.
  - unfold sess_take. destruct (N.ltb 0 (s_written s)); [cbn [next_id]; ssimp; now repeat split|].
    cbv zeta. set (s2 := with_input _ _).
    assert (E : s_closed (if N.ltb (nlen (s_input s2)) BUFFER_CAPACITY then wake_tr s2 else s2) = true).
    { destruct (N.ltb _ _); [rewrite closed_wake_tr|]; exact Hc. }
    destruct (firstn _ _); [|now repeat split]. rewrite E. destruct (s_error _); ssimp; now repeat split.
  - rewrite closed_close. now repeat split.
  - destruct (s_phase s); ssimp; now repeat split.
  - destruct (s_phase s); ssimp; rewrite ?closed_set_error; now repeat split.
  - unfold transport_poll. destruct (s_phase s); cbv zeta; ssimp; rewrite ?Hc; ssimp; now repeat split.
  - destruct (s_wait_rd s); ssimp; now repeat split.
  - destruct (s_wait_wr s); ssimp; now repeat split.
Qed.

Lemma closed_run s es :
  s_closed s = true -> match sess_run s es with (s', o) => s_closed s' = true /\ quiet o end.
Proof.
  revert s. induction es as [|e es IH]; intros s Hc; cbn [sess_run]; [now repeat split|].
  pose proof (closed_step s e Hc) as H. destruct (sess_step s e) as [s1 o1]. destruct H as [H1 (A & B & C)].
  specialize (IH s1 H1). destruct (sess_run s1 es) as [s2 o2]. destruct IH as [H2 (A' & B' & C')].
  split; [exact H2|]. unfold quiet. now rewrite accepted_app, written_app, read_in_app, A, A', B, B', C, C'.
Qed.

Lemma push_over s p :
  s_closed s = false -> s_outcap s < nlen p ->
  exists s', sess_step s (EPush p) = (s', []) /\ s_output s' = s_output s /\ s_closed s' = true /\ s_error s' = true.
Proof.
  intros Hc Hl. cbn [sess_step]. unfold sess_push. rewrite Hc.
  destruct (N.ltb_spec (s_outcap s) (nlen p)); [|lia]. eexists. split; [reflexivity|].
  split; [apply same_set_error|]. split; [apply closed_set_error|].
  unfold sess_set_error. rewrite Hc. unfold sess_close.
  destruct (wake_mgr_fields (wake_tr (with_closed (with_closed s false true) true (s_error (with_closed s false true)))))
    as (_ & _ & _ & _ & _ & _ & ->).
  destruct (wake_tr_fields (with_closed (with_closed s false true) true (s_error (with_closed s false true))))
    as (_ & _ & _ & _ & _ & _ & ->). reflexivity.
Qed.

(** A message within the capacity is accepted in full. *)
Lemma push_fits s p :
  s_closed s = false -> nlen p <= s_outcap s ->
  exists s', sess_step s (EPush p) = (s', [Accepted p]) /\ s_output s' = s_output s ++ p /\ s_closed s' = false.
Proof.
  intros Hc Hl. cbn [sess_step]. unfold sess_push. rewrite Hc.
  destruct (N.ltb_spec (s_outcap s) (nlen p)); [lia|]. cbv zeta. eexists. split; [reflexivity|].
  set (s2 := with_output _ _).
  assert (H2 : s_output s2 = s_output s ++ p /\ s_closed s2 = false) by (split; [reflexivity|exact Hc]).
  destruct (s_output s2) eqn:E; [now split; [rewrite E|]|].
  rewrite closed_wake_tr. split; [|exact Hc]. rewrite <- (proj1 H2), <- E.
  unfold wake_tr. destruct (s_tr_waker s2); [|symmetry; assumption || reflexivity]. ssimp. reflexivity.
Qed.
