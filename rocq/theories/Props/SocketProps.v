(** The network connections of the client: C122.

    [net_run (net_new window gateway f) es = (n, h)]: what a session manager and the tasks of its sessions did,
    including the tasks of sessions that it has removed ([n_left]). *)
From Coq Require Import NArith List Bool Lia.
From Verif.Model Require Import Bytes Frame Service Control Alist Session Manager Sockets.
From Verif.Spec Require Import SocketSpec.
From Verif.Proofs Require Import SocketPf.
Import ListNotations.
Local Open Scope N_scope.

(** C122 is false: there is no limit on the sessions a server may open, up to the number of their IDs. *)
Theorem C122_sessions_refuted :
  forall (window : N) (gateway : bool) (f : factory) (get : N -> option service) (svc : N) (s : service) (a : saddr),
    get svc = Some s -> s_addr s = Some a -> gateway = true \/ is_loopback (sa_ip a) = true ->
    forall k : nat, N.of_nat k <= 2 ^ 32 ->
    exists n h, net_run (net_new window gateway f) (map (fun i => NMgr (MConnect get svc (N.of_nat i))) (seq 0 k)) = (n, h) /\
      session_count n = k.
Proof.
  intros window gateway f get svc s a H1 H2 H3 k _. destruct (opened window gateway f get svc s a H1 H2 H3 k) as (n & h & A & B & _). eauto.
Qed.
Print Assumptions C122_sessions_refuted.

(** Even with never more than one session, any number of network connections may be in use: a session that is closed
    while its connection is being set up leaves it behind. *)
Theorem C122_left_refuted :
  forall (window : N) (gateway : bool) (f : factory) (get : N -> option service) (svc sid : N) (s : service) (a : saddr),
    get svc = Some s -> s_addr s = Some a -> gateway = true \/ is_loopback (sa_ip a) = true ->
    forall k : nat, exists es n h,
      net_run (net_new window gateway f) es = (n, h) /\ at_most 1 (net_new window gateway f) es /\
      connection_count n = k /\ session_count n = 0%nat.
Proof. exact unbounded. Qed.
Print Assumptions C122_left_refuted.

(** What holds: nothing is read from or written to a service once its session is gone, and its connection is closed at
    the next poll, which is due, if it had been set up by then. *)
Theorem C122_closed_partial :
  forall (window : N) (gateway : bool) (f : factory) (es : list nev) (n : net) (h : list nobs),
    net_run (net_new window gateway f) es = (n, h) ->
    (forall s, In s (n_left n) -> s_phase s = TRunning ->
       s_tr_run s = true /\ forall r w, s_phase (fst (sess_step s (ETransport r w))) = TDone) /\
    (forall i t o, In (NAbandoned i t o) h -> io o = false).
Proof. exact left_connections. Qed.
Print Assumptions C122_closed_partial.

(** And nothing else ends it: whatever the manager and the other tasks do, a removed session is in the state that the steps
    of its own task give. *)
Theorem C122_followed :
  forall (n : net) (es : list nev) (i : nat) (s : sess), nth_error (n_left n) i = Some s ->
    nth_error (n_left (fst (net_run n es))) i = Some (fst (sess_run s (own_steps i es))).
Proof. intros n es i s. apply left_followed. Qed.
Print Assumptions C122_followed.

(** Session 7 is closed by the server when connected, session 8 ends when the service closes it, session 9 is closed
    while connecting. *)
Definition ex_get : N -> option service :=
  fun _ => Some {| s_type := TCP; s_mac := None; s_addr := Some {| sa_ip := V4 3232235777; sa_port := 9 |}; s_path := None |}.
Definition ex_net : net * list nobs :=
  net_run (net_new 65536 true 0)
    [NMgr (MConnect ex_get 1 7); NMgr (MConnect ex_get 1 8); NMgr (MConnect ex_get 1 9);
     NMgr (MTransport 7 TConnected); NMgr (MTransport 8 TConnected);
     NMgr (MTransport 7 (TPolled (RdData [1]) WrPending)); NMgr (MTransport 8 (TPolled (RdData []) WrPending));
     NMgr (MClose 7); NMgr MPoll; NMgr (MClose 9);
     NLeft 0 (TPolled (RdData [2]) (WrOk 5)); NLeft 2 TConnected].
Example C122_case :
  map s_phase (n_left (fst ex_net)) = [TDone; TRunning; TRunning] /\ session_count (fst ex_net) = 0%nat /\
  connection_count (fst ex_net) = 2%nat.
Proof. repeat split. Qed.
