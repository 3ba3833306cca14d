(** Properties C13-C20: flow of data and wake-ups of one session. [sess_new svc sid W] is a fresh
    session with window [W] (the client uses 65536); [es] is any interleaving of messages from the
    server, polls by the connection task, steps of the transport task with any socket behaviour. *)
From Coq Require Import NArith List Bool.
From Verif.Model Require Import Bytes Frame Service Control Session.
From Verif.Spec Require Import SessionSpec.
From Verif.Proofs Require Import SessionProofs SessionPropsPf.
Import ListNotations.
Local Open Scope N_scope.

(** C13 *)
Theorem C13_output_in_order :
  forall (svc sid W : N) (es : list sev) (s : sess) (o : list sobs),
    sess_run (sess_new svc sid W) es = (s, o) -> accepted o = written o ++ s_output s.
Proof. exact output_in_order. Qed.
Print Assumptions C13_output_in_order.

Example C13_case :
  let '(s, o) := sess_run (sess_new 5 1 65536)
    [EConnected; EPush [1; 2; 3]; ETransport RdPending (WrOk 2); EPush [4]; ETransport (RdData [9]) (WrOk 1)] in
  accepted o = [1; 2; 3; 4] /\ written o = [1; 2; 3] /\ s_output s = [4].
Proof. vm_compute. repeat split. Qed.

(** C14 *)
Theorem C14_input_in_order :
  forall (svc sid W : N) (es : list sev) (s : sess) (o : list sobs),
    sess_run (sess_new svc sid W) es = (s, o) ->
    read_in o = sent o ++ s_input s /\
    (forall m, In (SentData m) o -> m_payload m <> [] /\ m_service m = svc /\ m_session m = N.land sid 16777215).
Proof. exact input_in_order. Qed.
Print Assumptions C14_input_in_order.

Example C14_case :
  let '(s, o) := sess_run (sess_new 5 1 4)
    [EConnected; ETransport (RdData [1; 2; 3]) WrPending; ETransport (RdData [4; 5; 6]) WrPending; ETake factory_new] in
  read_in o = [1; 2; 3; 4; 5; 6] /\ sent o = [1; 2; 3; 4] /\ s_input s = [5; 6].
Proof. vm_compute. repeat split. Qed.

(** C15: holds after every prefix, since [es] is arbitrary. *)
Theorem C15_window_respected :
  forall (svc sid W : N) (es : list sev) (s : sess) (o : list sobs),
    sess_run (sess_new svc sid W) es = (s, o) -> nlen (sent o) <= W + acked_in es.
Proof. exact window_respected. Qed.
Print Assumptions C15_window_respected.

Example C15_case :
  let '(s, o) := sess_run (sess_new 5 1 4)
    [EConnected; ETransport (RdData [1; 2; 3; 4; 5; 6]) WrPending; ETake factory_new; ETake factory_new;
     EDataAck 1; ETake factory_new] in
  sent o = [1; 2; 3; 4; 5].
Proof. vm_compute. reflexivity. Qed.

(** C16 *)
Theorem C16_acks_exact :
  forall (svc sid W : N) (es : list sev) (s : sess) (o : list sobs),
    W < 2 ^ 32 ->
    sess_run (sess_new svc sid W) es = (s, o) ->
    acked_out o + s_written s = nlen (written o) /\
    nlen (s_output s) + s_written s + s_outcap s = W /\
    nlen (accepted o) <= W + acked_out o.
Proof. exact acks_exact. Qed.
Print Assumptions C16_acks_exact.

Theorem C16_over_capacity :
  forall (s : sess) (p : bytes),
    s_closed s = false -> s_outcap s < nlen p ->
    exists s', sess_step s (EPush p) = (s', []) /\ s_output s' = s_output s /\ s_closed s' = true /\ s_error s' = true.
Proof. exact push_over. Qed.
Print Assumptions C16_over_capacity.

Theorem C16_within_capacity :
  forall (s : sess) (p : bytes),
    s_closed s = false -> nlen p <= s_outcap s ->
    exists s', sess_step s (EPush p) = (s', [Accepted p]) /\ s_output s' = s_output s ++ p /\ s_closed s' = false.
Proof. exact push_fits. Qed.
Print Assumptions C16_within_capacity.

Example C16_case :
  let '(s, o) := sess_run (sess_new 5 1 4)
    [EConnected; EPush [1; 2; 3]; ETransport RdPending (WrOk 2); ETake factory_new; EPush [4; 5]] in
  acked_out o = 2 /\ written o = [1; 2] /\ s_outcap s = 1 /\ s_output s = [3; 4; 5] /\
  snd (sess_step s (EPush [6; 7])) = [].
Proof. vm_compute. repeat split. Qed.

(** C17 *)
Theorem C17_no_lost_wakeup :
  forall (svc sid W : N) (es : list sev) (s : sess) (o : list sobs),
    sess_run (sess_new svc sid W) es = (s, o) -> s_mgr_run s = false ->
    s_mgr_waker s = true /\ s_written s = 0 /\ (s_input s = [] \/ s_incap s = 0) /\ s_closed s = false /\
    (forall f, fst (fst (fst (sess_take f s))) = TkPending).
Proof. exact no_lost_wakeup_mgr. Qed.
Print Assumptions C17_no_lost_wakeup.

Example C17_case :
  let '(s, o) := sess_run (sess_new 5 1 4) [EConnected; ETake factory_new] in
  s_mgr_run s = false /\
  s_mgr_run (fst (sess_step s (ETransport (RdData [1]) WrPending))) = true /\
  s_mgr_run (fst (sess_step s EClose)) = true.
Proof. vm_compute. repeat split. Qed.

(** C18 *)
Theorem C18_no_lost_wakeup :
  forall (svc sid W : N) (es : list sev) (s : sess) (o : list sobs),
    sess_run (sess_new svc sid W) es = (s, o) -> s_phase s = TRunning -> s_tr_run s = false ->
    s_tr_waker s = true /\ s_closed s = false /\
    (BUFFER_CAPACITY <= nlen (s_input s) \/ s_wait_rd s = true) /\
    (s_output s = [] \/ s_wait_wr s = true).
Proof. exact no_lost_wakeup_tr. Qed.
Print Assumptions C18_no_lost_wakeup.

Theorem C18_connecting_runs :
  forall (svc sid W : N) (es : list sev) (s : sess) (o : list sobs),
    sess_run (sess_new svc sid W) es = (s, o) -> s_phase s = TConnecting -> s_tr_run s = true.
Proof. exact connecting_runs. Qed.
Print Assumptions C18_connecting_runs.

Example C18_case :
  let '(s, o) := sess_run (sess_new 5 1 4) [EConnected; ETransport RdPending WrPending] in
  s_tr_run s = false /\ s_tr_run (fst (sess_step s (EPush [1]))) = true /\
  s_tr_run (fst (sess_step s EClose)) = true /\ s_tr_run (fst (sess_step s EReadable)) = true.
Proof. vm_compute. repeat split. Qed.

(** C19 is false: when the server's window is used up, the end of the session is reported although
    data is still buffered, and the session manager then drops the session. *)
Theorem C19_eof_data_refuted :
  exists (es : list sev),
    (forall b w, In (ETransport (RdData b) w) es -> nlen b <= 8192) /\
    forall s o, sess_run (sess_new 5 1 65536) es = (s, o) ->
      fst (fst (fst (sess_take factory_new s))) = TkEnd /\
      nlen (read_in o) = 65537 /\ nlen (sent o) = 65536.
Proof. exact eof_refuted. Qed.
Print Assumptions C19_eof_data_refuted.

(** What holds: at the end everything was forwarded, or the window was used up completely. *)
Theorem C19_eof_data_partial :
  forall (svc sid W : N) (es : list sev) (s : sess) (o : list sobs) (f : factory),
    W + acked_in es < 2 ^ 64 ->
    sess_run (sess_new svc sid W) es = (s, o) ->
    fst (fst (fst (sess_take f s))) = TkEnd \/ fst (fst (fst (sess_take f s))) = TkError ->
    sent o = read_in o \/ nlen (sent o) = W + acked_in es.
Proof. exact eof_forwarded. Qed.
Print Assumptions C19_eof_data_partial.

Example C19_case :
  let '(s, o) := sess_run (sess_new 5 1 65536)
    [EConnected; ETransport (RdData [1; 2]) WrPending; ETransport (RdData []) WrPending; ETake factory_new] in
  fst (fst (fst (sess_take factory_new s))) = TkEnd /\ sent o = [1; 2].
Proof. vm_compute. repeat split. Qed.

(** C20 is false: what was accepted but not yet written when the server hangs up is dropped. *)
Theorem C20_hup_flush_refuted :
  exists (es : list sev),
    forall s o, sess_run (sess_new 5 1 65536) (es ++ [EClose]) = (s, o) ->
      accepted o = [1; 2; 3] /\ written o = [1] /\ forall es', written (snd (sess_run s es')) = [].
Proof. exact hup_refuted. Qed.
Print Assumptions C20_hup_flush_refuted.

(** What holds: after the hang-up nothing is read, accepted or written any more, so exactly the bytes
    buffered at that moment are lost. *)
Theorem C20_hup_stops_partial :
  forall (svc sid W : N) (es1 es2 : list sev) (s : sess) (o : list sobs),
    sess_run (sess_new svc sid W) (es1 ++ EClose :: es2) = (s, o) ->
    let '(s1, o1) := sess_run (sess_new svc sid W) es1 in
    accepted o = accepted o1 /\ written o = written o1 /\ read_in o = read_in o1 /\
    accepted o = written o ++ s_output s1.
Proof. exact hup_stops. Qed.
Print Assumptions C20_hup_stops_partial.

Example C20_case :
  written (snd (sess_run (sess_new 5 1 65536)
    [EConnected; EPush [1]; EClose; ETransport RdPending (WrOk 1); EPush [2]; ETransport (RdData [1]) (WrOk 1)])) = [].
Proof. vm_compute. reflexivity. Qed.
