(** What may depend on the identity of the client. *)
From Coq Require Import NArith ZArith List.
From Verif.Model Require Import Bytes Frame Control Client.
Import ListNotations.

(** Two effects are the same, or each is the hand-over of the REGISTER message of its run. *)
Definition same_effect (r r' : cmsg) (x y : cobs) : Prop :=
  x = y \/ (exists t, x = XQueue t r /\ y = XQueue t r') \/ (x = XSent (amsg_of_cmsg r) /\ y = XSent (amsg_of_cmsg r')).
Definition same_message (r r' : cmsg) (x y : amsg) : Prop :=
  x = y \/ (x = amsg_of_cmsg r /\ y = amsg_of_cmsg r').
(** Two client contexts differ in nothing but REGISTER messages that wait in the output queue. *)
Definition same_context (r r' : cmsg) (c c' : ctx) : Prop :=
  Forall2 (same_message r r') (c_messages c) (c_messages c') /\ set_messages c [] = set_messages c' [].
