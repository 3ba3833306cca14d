(** C138: tasks do not run in vain.

    [run_when_due s es]: the transport task is polled only when it is runnable. [turns es] counts its polls and [outside es]
    everything else that happens to the session. [polled_when_due k es]: the connection task is polled without anything from
    the server only when it is runnable; [idle_polls es] counts these polls and [causes es] all other events. *)
From Coq Require Import NArith ZArith List Bool.
From Verif.Model Require Import Bytes Frame Service Control Alist Session Manager Client.
From Verif.Spec Require Import SessionSpec ManagerSpec ClientSpec SpinSpec.
From Verif.Proofs Require Import ClientPropsPf ClientPropsPf2 SpinPf.
Import ListNotations.
Local Open Scope N_scope.

(** Every turn of the transport task but two is paid for by an event from outside or by a byte read or written. *)
Theorem C138_transport :
  forall (svc sid W : N) (es : list sev) (s : sess) (o : list sobs),
    run_when_due (sess_new svc sid W) es -> writes_something es -> sess_run (sess_new svc sid W) es = (s, o) ->
    turns es <= 2 + outside es + nlen (SessionSpec.read_in o) + nlen (SessionSpec.written o).
Proof. exact no_spin. Qed.
Print Assumptions C138_transport.

(** The assumption is needed: with a stream whose writes take nothing, the task runs without end. *)
Theorem C138_zero_writes :
  forall k : nat, exists s o,
    run_when_due (sess_new 5 1 65536) (zero_turns k) /\ sess_run (sess_new 5 1 65536) (zero_turns k) = (s, o) /\
    turns (zero_turns k) = N.of_nat k /\ outside (zero_turns k) = 2 /\
    SessionSpec.read_in o = [] /\ SessionSpec.written o = [].
Proof. exact zero_spins. Qed.
Print Assumptions C138_zero_writes.

(** The task is woken by the socket only for what it can do: it waits for room in the socket only while it has something
    to write, and for data only while its buffer has not 8192 bytes, and for neither before it is connected. *)
Theorem C138_waits :
  forall (svc sid W : N) (es : list sev) (s : sess) (o : list sobs),
    sess_run (sess_new svc sid W) es = (s, o) ->
    (s_wait_wr s = true -> s_phase s <> TConnecting /\ s_output s <> []) /\
    (s_wait_rd s = true -> s_phase s <> TConnecting /\ nlen (s_input s) < 8192).
Proof. exact waits_for. Qed.
Print Assumptions C138_waits.
Example C138_waits_case :
  let s := fst (sess_run (sess_new 5 1 65536) [EConnected; EPush [1; 2; 3]; ETransport RdPending WrPending]) in
  s_wait_wr s = true /\ s_wait_rd s = true /\ s_output s = [1; 2; 3].
Proof. repeat split. Qed.

(** A poll of the connection task that neither ends the connection nor hands over a message leaves the task asleep. *)
Theorem C138_poll_sleeps :
  forall (t0 : Z) (i : identity) (v1 v2 : view) (es : list kev) (items : list sitem) (k k' : conn) (h o : list cobs),
    connection t0 i v1 v2 es = (k, h) -> k_result k = None -> conn_step k (KPoll items) = (k', o) ->
    k_result k' = None -> ClientSpec.sent o = [] -> awake k' = false.
Proof. intros t0 i v1 v2 es items k k' h o. exact (idle_poll t0 i v1 v2 es items k h k' o). Qed.
Print Assumptions C138_poll_sleeps.

(** So every such poll but one is paid for by another event or by a message handed over. *)
Theorem C138_connection :
  forall (t0 : Z) (i : identity) (v1 v2 : view) (es : list kev) (k : conn) (h : list cobs),
    polled_when_due (fst (conn_new t0 i v1 v2)) es -> connection t0 i v1 v2 es = (k, h) ->
    idle_polls es <= 1 + causes es + nlen (ClientSpec.sent h).
Proof. exact no_idle_spin. Qed.
Print Assumptions C138_connection.

(** Three messages of one byte go out, one comes in, and the service closes the connection. *)
Definition busy : list sev :=
  [EConnected; EPush [1; 2; 3]; ETransport RdPending (WrOk 1); ETransport RdPending (WrOk 1); ETransport (RdData [9]) (WrOk 1);
   ETransport RdPending WrPending; EReadable; ETransport (RdData []) WrPending; ETransport RdPending WrPending].
Example C138_transport_case :
  run_when_due (sess_new 5 1 65536) busy /\ writes_something busy /\ turns busy = 6 /\ outside busy = 3 /\
  s_phase (fst (sess_run (sess_new 5 1 65536) busy)) = TDone.
Proof.
  split; [repeat split|]. split; [|repeat split].
  intros r n H. cbn [busy In] in H. repeat (destruct H as [H|H]; [try discriminate H; injection H as _ <-; reflexivity|]). destruct H.
Qed.

Definition quiet_day : list kev :=
  [KPoll []; KPoll []; KPoll [SMsg 1 (env0 view9) (ack_msg 0 0)]; KPoll [SMsg 2 (env0 view9) (connect_msg 0)];
   KTransport 7 TConnected; KTransport 7 (TPolled (RdData [1; 2]) WrPending); KPoll []; KPoll []].
Example C138_connection_case :
  let '(k, h) := connection 0 race_id view9 view9 quiet_day in
  polled_when_due (fst (conn_new 0 race_id view9 view9)) quiet_day /\ k_result k = None /\ awake k = false /\
  idle_polls quiet_day = 4 /\ causes quiet_day = 4 /\ length (ClientSpec.sent h) = 2%nat.
Proof. vm_compute. repeat split. Qed.
