(** C141: how many polls of the client it takes until the data of a service is sent. *)
From Coq Require Import NArith List Bool.
From Verif.Model Require Import Bytes Frame Session Manager Client.
From Verif.Spec Require Import ManagerSpec ClientSpec FairSpec.
Import ListNotations.
Local Open Scope N_scope.

(** Acknowledgements that can still go before the data: one for the bytes written so far, one for each of the
    bytes that are still to be written. *)
Definition acks_ahead (s : sess) : nat := (N.to_nat (nlen (s_output s)) + (if 0 <? s_written s then 1 else 0))%nat.

(** Messages ahead of the data of session [sid]: control messages, rejections, one message of every session
    scheduled before it, and a whole round for each acknowledgement. *)
Definition ahead (k : conn) (sid : N) (s : sess) : nat :=
  (length (c_messages (k_ctx k)) + length (g_queue (c_mgr (k_ctx k))) + position sid (g_order (c_mgr (k_ctx k)))
   + acks_ahead s * length (g_order (c_mgr (k_ctx k))))%nat.
