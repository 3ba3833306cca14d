(** Data that waits in a session moves on: C139. *)
From Coq Require Import NArith List Bool.
From Verif.Model Require Import Bytes Frame Service Control Alist Session Manager Client.
Import ListNotations.
Local Open Scope N_scope.

(** Turns of the transport task in which the service is ready to take at least one byte. *)
Definition is_push_out (e : sev) : bool := match e with ETransport _ (WrOk n) => 0 <? n | _ => false end.
Definition chances (es : list sev) : N := nlen (filter is_push_out es).

(** Polls of the session by the connection task. *)
Definition is_take (e : sev) : bool := match e with ETake _ => true | _ => false end.
Definition takes (es : list sev) : N := nlen (filter is_take es).

(** Writes to the service. *)
Definition is_wrote (x : sobs) : bool := match x with Wrote _ => true | _ => false end.
Definition writes (o : list sobs) : N := nlen (filter is_wrote o).

(** For a connection: turns of the transport task of session [sid] in which its service is ready to take something. *)
Definition is_ready (sid : N) (e : kev) : bool :=
  match e with KTransport s (TPolled _ (WrOk n)) => N.eqb s sid && (0 <? n) | _ => false end.
Definition ready (sid : N) (es : list kev) : N := nlen (filter (is_ready sid) es).

(** No session [sid] is opened. *)
Definition not_opened (sid : N) (h : list cobs) : Prop := forall t mac a, ~ In (XMgr (OOpen sid t mac a)) h.
