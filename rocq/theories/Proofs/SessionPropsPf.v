(** Session properties in the form used by [Props/SessionProps.v]. *)
From Coq Require Import NArith List Bool Lia ZArith ZifyBool ZifyNat ZifyN.
From Verif.Model Require Import Bytes Frame Service Control Session.
From Verif.Spec Require Import SessionSpec.
From Verif.Proofs Require Import BytesFacts SessionProofs.
Import ListNotations.
Local Open Scope N_scope.

Lemma output_in_order svc sid W es s o :
  sess_run (sess_new svc sid W) es = (s, o) -> accepted o = written o ++ s_output s.
Proof. intros H. pose proof (run_ok_holds svc sid W es) as R. rewrite H in R. apply R. Qed.

Lemma input_in_order svc sid W es s o :
  sess_run (sess_new svc sid W) es = (s, o) ->
  read_in o = sent o ++ s_input s /\
  (forall m, In (SentData m) o -> m_payload m <> [] /\ m_service m = svc /\ m_session m = N.land sid 16777215).
Proof.
  intros H. pose proof (run_ok_holds svc sid W es) as R. rewrite H in R. split; [apply R|].
  intros m Hm. pose proof (ro_msg _ _ _ _ _ _ R) as G. rewrite Forall_forall in G. exact (G _ Hm).
Qed.

Lemma window_respected svc sid W es s o :
  sess_run (sess_new svc sid W) es = (s, o) -> nlen (sent o) <= W + acked_in es.
Proof. intros H. pose proof (run_ok_holds svc sid W es) as R. rewrite H in R. pose proof (ro_win _ _ _ _ _ _ R). lia. Qed.

Lemma acks_exact svc sid W es s o :
  W < 2 ^ 32 -> sess_run (sess_new svc sid W) es = (s, o) ->
  acked_out o + s_written s = nlen (written o) /\
  nlen (s_output s) + s_written s + s_outcap s = W /\
  nlen (accepted o) <= W + acked_out o.
Proof.
  intros HW H. pose proof (run_ok_holds svc sid W es) as R. rewrite H in R.
  destruct R as [A B C D E E' F G]. specialize (C HW). repeat split; auto.
  rewrite A, nlen_app. lia.
Qed.

Lemma no_lost_wakeup_mgr svc sid W es s o :
  sess_run (sess_new svc sid W) es = (s, o) -> s_mgr_run s = false ->
  s_mgr_waker s = true /\ s_written s = 0 /\ (s_input s = [] \/ s_incap s = 0) /\ s_closed s = false /\
  (forall f, fst (fst (fst (sess_take f s))) = TkPending).
Proof.
  intros H Hr. pose proof (run_winv _ es (winv_new svc sid W)) as [Hm _]. rewrite H in Hm. cbn [fst] in Hm.
  destruct (Hm Hr) as (A & B & C & D). repeat split; auto.
  - destruct (s_input s); [now left|]. right. unfold nlen in C. cbn [length] in C. lia.
  - intros f. now apply mgr_sleep_pending.
Qed.

Lemma no_lost_wakeup_tr svc sid W es s o :
  sess_run (sess_new svc sid W) es = (s, o) -> s_phase s = TRunning -> s_tr_run s = false ->
  s_tr_waker s = true /\ s_closed s = false /\
  (BUFFER_CAPACITY <= nlen (s_input s) \/ s_wait_rd s = true) /\
  (s_output s = [] \/ s_wait_wr s = true).
Proof.
  intros H Hp Hr. pose proof (run_winv _ es (winv_new svc sid W)) as [_ [_ Ht]]. rewrite H in Ht. exact (Ht Hp Hr).
Qed.

(** The connecting phase is driven by the connector future, which always runs to its timeout. *)
Lemma connecting_runs svc sid W es s o :
  sess_run (sess_new svc sid W) es = (s, o) -> s_phase s = TConnecting -> s_tr_run s = true.
Proof.
  intros H Hp. pose proof (run_winv _ es (winv_new svc sid W)) as [_ [Ht _]]. rewrite H in Ht. exact (Ht Hp).
Qed.

Lemma eof_forwarded svc sid W es s o f :
  W + acked_in es < 2 ^ 64 ->
  sess_run (sess_new svc sid W) es = (s, o) ->
  fst (fst (fst (sess_take f s))) = TkEnd \/ fst (fst (fst (sess_take f s))) = TkError ->
  sent o = read_in o \/ nlen (sent o) = W + acked_in es.
Proof.
  intros HB H He. pose proof (run_ok_holds svc sid W es) as R. rewrite H in R.
  destruct (take_end s f He) as [Hi|Hi].
  - left. rewrite (ro_in _ _ _ _ _ _ R), Hi, app_nil_r. reflexivity.
  - right. pose proof (ro_exact _ _ _ _ _ _ R HB). lia.
Qed.

(** A service that sends the whole window plus one byte and closes: the last byte is lost. *)
Definition eof_schedule : list sev :=
  [EConnected] ++
  concat (repeat [ETransport (RdData (repeat 7 8192)) WrPending; ETake factory_new] 8) ++
  [ETransport (RdData [9]) WrPending; ETransport (RdData []) WrPending].

Lemma eof_refuted :
  exists (es : list sev),
    (forall b w, In (ETransport (RdData b) w) es -> nlen b <= 8192) /\
    forall s o, sess_run (sess_new 5 1 65536) es = (s, o) ->
      fst (fst (fst (sess_take factory_new s))) = TkEnd /\
      nlen (read_in o) = 65537 /\ nlen (sent o) = 65536.
Proof.
  exists eof_schedule. split.
  - assert (G : Forall (fun e => match e with ETransport (RdData b) _ => nlen b <= 8192 | _ => True end) eof_schedule).
    { unfold eof_schedule. apply Forall_app. split; [repeat constructor|]. apply Forall_app. split.
      - apply Forall_concat, Forall_forall. intros x Hx. apply repeat_spec in Hx. subst x.
        constructor; [|repeat constructor]. vm_compute. discriminate.
      - repeat constructor; vm_compute; discriminate. }
    intros b w Hin. rewrite Forall_forall in G. exact (G _ Hin).
  - intros s o H.
    assert (E : (let '(s1, o1) := sess_run (sess_new 5 1 65536) eof_schedule in
                 (match fst (fst (fst (sess_take factory_new s1))) with TkEnd => 1 | _ => 0 end,
                  nlen (read_in o1), nlen (sent o1))) = (1, 65537, 65536)) by (vm_compute; reflexivity).
    rewrite H in E. clear H.
    generalize dependent (nlen (sent o)). generalize dependent (nlen (read_in o)).
    generalize dependent (fst (fst (fst (sess_take factory_new s)))). clear.
    intros t a b E. destruct t; inversion E. auto.
Qed.

Lemma hup_refuted :
  exists (es : list sev),
    forall s o, sess_run (sess_new 5 1 65536) (es ++ [EClose]) = (s, o) ->
      accepted o = [1; 2; 3] /\ written o = [1] /\ forall es', written (snd (sess_run s es')) = [].
Proof.
  exists [EConnected; EPush [1; 2; 3]; ETransport RdPending (WrOk 1)]. intros s o H.
  assert (E : sess_run (sess_new 5 1 65536) ([EConnected; EPush [1; 2; 3]; ETransport RdPending (WrOk 1)] ++ [EClose]) = (s, o)) by exact H.
  vm_compute in E. injection E as <- <-. split; [reflexivity|]. split; [reflexivity|].
  intros es'. match goal with |- context [sess_run ?x es'] => pose proof (closed_run x es' eq_refl) as Q end.
  destruct (sess_run _ es') as [s2 o2]. cbn [snd]. apply Q.
Qed.

Lemma hup_stops svc sid W es1 es2 s o :
  sess_run (sess_new svc sid W) (es1 ++ EClose :: es2) = (s, o) ->
  let '(s1, o1) := sess_run (sess_new svc sid W) es1 in
  accepted o = accepted o1 /\ written o = written o1 /\ read_in o = read_in o1 /\
  accepted o = written o ++ s_output s1.
Proof.
  intros H. pose proof (run_ok_holds svc sid W es1) as R. rewrite sess_run_app in H.
  destruct (sess_run (sess_new svc sid W) es1) as [s1 o1]. cbn [sess_run sess_step] in H.
  pose proof (closed_run (sess_close s1) es2 (closed_close s1)) as Q.
  destruct (sess_run (sess_close s1) es2) as [s2 o2]. destruct Q as [_ (A & B & C)].
  injection H as <- <-. cbn [app]. rewrite accepted_app, written_app, read_in_app, A, B, C, !app_nil_r.
  repeat split. apply R.
Qed.
