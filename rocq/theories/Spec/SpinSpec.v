(** Tasks that do not run in vain: C138. *)
From Coq Require Import NArith List Bool.
From Verif.Model Require Import Bytes Frame Service Control Alist Session Manager Client.
Import ListNotations.
Local Open Scope N_scope.

(** The executor polls the transport task of a session only when it is runnable, and not after it has ended. *)
Fixpoint run_when_due (s : sess) (es : list sev) : Prop :=
  match es with
  | [] => True
  | e :: es' =>
      match e with ETransport _ _ => s_phase s = TRunning /\ s_tr_run s = true | _ => True end /\
      run_when_due (fst (sess_step s e)) es'
  end.

(** Writing to the service takes at least one byte, fails or has to wait. *)
Definition writes_something (es : list sev) : Prop := forall r n, In (ETransport r (WrOk n)) es -> 0 < n.

(** Steps of the transport task, and everything that happens outside of it: calls of the connection task and the socket. *)
Definition is_turn (e : sev) : bool := match e with ETransport _ _ => true | _ => false end.
Definition turns (es : list sev) : N := nlen (filter is_turn es).
Definition outside (es : list sev) : N := nlen (filter (fun e => negb (is_turn e)) es).

(** The task of a server connection is runnable. *)
Definition awake (k : conn) : bool :=
  c_run (k_ctx k) || g_run (c_mgr (k_ctx k)) || existsb (fun p => s_mgr_run (snd p)) (g_sessions (c_mgr (k_ctx k))).

(** The connection task is polled without anything from the server only when it is runnable, and not after its end. *)
Fixpoint polled_when_due (k : conn) (es : list kev) : Prop :=
  match es with
  | [] => True
  | e :: es' =>
      match e with KPoll [] => k_result k = None /\ awake k = true | _ => True end /\
      polled_when_due (fst (conn_step k e)) es'
  end.

(** Polls of the connection task without anything from the server, and all other events. *)
Definition is_idle_poll (e : kev) : bool := match e with KPoll [] => true | _ => false end.
Definition idle_polls (es : list kev) : N := nlen (filter is_idle_poll es).
Definition causes (es : list kev) : N := nlen (filter (fun e => negb (is_idle_poll e)) es).
