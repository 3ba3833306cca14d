(** C140: how long a session of a connection waits for its turn. *)
From Coq Require Import NArith List Bool.
From Verif.Model Require Import Bytes Frame Session Manager Client.
From Verif.Spec Require Import ManagerSpec ClientSpec.
Import ListNotations.
Local Open Scope N_scope.

(** Polls of the client by the connection. *)
Definition is_poll (e : kev) : bool := match e with KPoll _ => true | _ => false end.
Definition client_polls (es : list kev) : nat := length (filter is_poll es).

(** The server closes session [sid]. *)
Definition hung_up (sid : N) (h : list cobs) : Prop := exists o, In (XMgr (OSess sid EClose o)) h.

(** Capacity that the server grants to session [sid]. *)
Definition granted (sid : N) (h : list cobs) : N :=
  fold_right (fun x acc => match x with XMgr (OSess s (EDataAck n) _) => if N.eqb s sid then n else 0 | _ => 0 end + acc) 0 h.

(** A message of session [sid] is handed over: data, an acknowledgement or its end. *)
Definition had_turn (sid : N) (h : list cobs) : Prop := existsb (message_of sid) (manager_history h) = true.

(** Answers to requests that could not be delivered to a session. *)
Definition rejections (h : list cobs) : nat := queued (manager_history h).

(** Wake-ups of the watchdog. *)
Definition is_wakeup (e : kev) : bool := match e with KTick _ _ _ _ => true | _ => false end.
Definition wakeups (es : list kev) : nat := length (filter is_wakeup es).
