(** White space and letters, by code points. *)
From Coq Require Import String NArith List Bool.
From Verif.Model Require Import Bytes.
From Verif.Spec Require Import ControlSpec.
Import ListNotations.
Local Open Scope N_scope.

(** The code points with the property White_Space (Unicode, PropList.txt). *)
Definition space (c : N) : Prop :=
  9 <= c <= 13 \/ c = 32 \/ c = 133 \/ c = 160 \/ c = 5760 \/ 8192 <= c <= 8202 \/ c = 8232 \/ c = 8233 \/ c = 8239 \/ c = 8287 \/ c = 12288.

Definition utf8 (cps : list N) : bytes := List.concat (map utf8_char cps).

(** A text without white space at both ends. *)
Definition tight (cps : list N) : Prop :=
  Forall scalar cps /\ (forall c r, cps = c :: r -> ~ space c) /\ (forall r c, cps = r ++ [c] -> ~ space c).

Definition capitals : bytes := lit "ABCDEFGHIJKLMNOPQRSTUVWXYZ"%string.
Definition smalls : bytes := lit "abcdefghijklmnopqrstuvwxyz"%string.
