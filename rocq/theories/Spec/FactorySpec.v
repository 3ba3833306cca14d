(** C11: the messages that are asked of the factory. *)
From Coq Require Import NArith List Bool.
From Verif.Model Require Import Bytes Service Control.
Import ListNotations.
Local Open Scope N_scope.

(** The message for a call with a fresh ID [id]. An ACK has the ID that it acknowledges; session IDs have 24 bits; the window is
    announced less one and has to be between 1 and 65536. *)
Definition made (id : N) (c : fcall) : result cmsg :=
  match c with
  | FAck i err => ROk {| cm_id := i; cm_type := 0; cm_body := BAck err |}
  | FDataAck s l => ROk {| cm_id := id; cm_type := 12; cm_body := BDataAck (s mod 2 ^ 24) l |}
  | FHup s err => ROk {| cm_id := id; cm_type := 5; cm_body := BHup (s mod 2 ^ 24) err |}
  | FStatus r flags n => ROk {| cm_id := id; cm_type := 9; cm_body := BStatus r flags n |}
  | FScanReport r hosts t => ROk {| cm_id := id; cm_type := 11; cm_body := BScanReport r hosts t |}
  | FPing => ROk {| cm_id := id; cm_type := 1; cm_body := BEmpty |}
  | FRegister uuid key mac window gateway t info =>
      if (1 <=? window) && (window <=? 65536)
      then ROk {| cm_id := id; cm_type := 2; cm_body := BRegister uuid key mac (window - 1) (if gateway then 1 else 0) info t |}
      else RPanic
  | FUpdate t => ROk {| cm_id := id; cm_type := 4; cm_body := BUpdate t |}
  end.
