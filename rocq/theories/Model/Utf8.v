(** UTF-8 validation as done by `core::str::from_utf8` (used by
    src/net/arrow/proto/msg/control/redirect.rs:55 and src/net/http/generic.rs LineDecoder). *)
From Coq Require Import NArith List Bool.
From Verif.Model Require Import Bytes.
Import ListNotations.
Local Open Scope N_scope.

Definition between (lo hi b : N) : bool := N.leb lo b && N.leb b hi.
Definition cont (b : N) : bool := between 128 191 b.

Fixpoint utf8_valid (l : bytes) : bool :=
  match l with
  | [] => true
  | b0 :: t0 =>
      if N.leb b0 127 then utf8_valid t0
      else if between 194 223 b0 then
        match t0 with b1 :: t1 => cont b1 && utf8_valid t1 | [] => false end
      else if between 224 239 b0 then
        match t0 with
        | b1 :: b2 :: t2 =>
            (if N.eqb b0 224 then between 160 191 b1
             else if N.eqb b0 237 then between 128 159 b1 else cont b1)
            && cont b2 && utf8_valid t2
        | _ => false
        end
      else if between 240 244 b0 then
        match t0 with
        | b1 :: b2 :: b3 :: t3 =>
            (if N.eqb b0 240 then between 144 191 b1
             else if N.eqb b0 244 then between 128 143 b1 else cont b1)
            && cont b2 && cont b3 && utf8_valid t3
        | _ => false
        end
      else false
  end.
