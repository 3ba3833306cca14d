(** Control messages that wait for the network. *)
From Coq Require Import NArith ZArith List Bool.
From Verif.Model Require Import Bytes Frame Control Session Manager Client.
From Verif.Spec Require Import ClientSpec.
Import ListNotations.

(** Messages of the client and hang-up messages of its session manager that wait to be sent. *)
Definition backlog (k : conn) : nat := (length (c_messages (k_ctx k)) + length (g_queue (c_mgr (k_ctx k))))%nat.
(** UPDATE messages queued so far. *)
Definition updates (h : list cobs) : nat := length (filter is_update h).
(** Watchdog ticks among the events of a connection. *)
Definition ticks (es : list kev) : nat := length (filter (fun e => match e with KTick _ _ _ _ => true | _ => false end) es).
