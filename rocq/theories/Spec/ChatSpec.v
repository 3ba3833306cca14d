(** C144: a conversation of a client of the server with a service. *)
From Coq Require Import NArith ZArith List Bool.
From Verif.Model Require Import Bytes Frame Service Control Session Manager Client.
From Verif.Spec Require Import ManagerSpec ClientSpec.
Import ListNotations.
Local Open Scope N_scope.

(** Things that happen while the server is silent and nothing moves on the socket of session [sid]: polls of the client,
    wake-ups of the watchdog, turns of its transport task in which the socket is not ready, and anything that the
    transport tasks of other sessions do. *)
Definition idle (te : tev) : Prop :=
  match te with TPolled RdPending WrPending | TReadable | TWritable => True | _ => False end.
Definition bystander (sid : N) (e : kev) : Prop :=
  match e with
  | KPoll [] => True
  | KTick _ _ _ _ => True
  | KTransport s te => s = sid -> idle te
  | _ => False
  end.

(** The server asks for a connection; the connection is established; the server sends a request; the service takes it
    and answers. Between these steps anything of [n1] to [n4] may happen. *)
Definition chat (sid : N) (ask request : sitem) (len : N) (answer : bytes) (w : wr) (n1 n2 n3 n4 : list kev) : list kev :=
  KPoll [ask] :: n1 ++ KTransport sid TConnected :: n2 ++ KPoll [request] :: n3 ++
  KTransport sid (TPolled RdPending (WrOk len)) :: n4 ++ [KTransport sid (TPolled (RdData answer) w)].

(** The client may connect to the address: it is in gateway mode, or the address is one of the device itself. *)
Definition reachable (i : identity) (a : saddr) : Prop := id_gateway i = true \/ loopback (sa_ip a).

(** Messages that wait for being sent, and two rounds of all sessions. *)
Definition turns_ahead (k : conn) : nat :=
  (length (c_messages (k_ctx k)) + length (g_queue (c_mgr (k_ctx k))) + 2 * length (g_order (c_mgr (k_ctx k))))%nat.
