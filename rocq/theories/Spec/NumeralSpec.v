(** Numbers and pieces of text, written without the functions of the model. *)
From Coq Require Import String NArith List Bool.
From Verif.Model Require Import Bytes.
From Verif.Spec Require Import ControlSpec TextSpec.
Import ListNotations.
Local Open Scope N_scope.

Definition small_digits : bytes := lit "0123456789abcdefghijklmnopqrstuvwxyz"%string.
Definition capital_digits : bytes := lit "0123456789ABCDEFGHIJKLMNOPQRSTUVWXYZ"%string.
(** [c] is the character of the digit [d]. *)
Definition digit (radix d c : N) : Prop :=
  d < radix /\ (nth_error small_digits (N.to_nat d) = Some c \/ nth_error capital_digits (N.to_nat d) = Some c).
(** Value of digits, the most significant one first *)
Fixpoint positional (radix : N) (ds : list N) : N :=
  match ds with
  | [] => 0
  | d :: ds' => d * radix ^ N.of_nat (List.length ds') + positional radix ds'
  end.
(** [s] is the number [v], written with at least one digit. *)
Definition numeral (radix : N) (s : bytes) (v : N) : Prop :=
  exists ds, ds <> [] /\ Forall2 (digit radix) ds s /\ v = positional radix ds.

(** Pieces with a character between them *)
Definition between (c : N) (l : list bytes) : bytes :=
  match l with
  | [] => []
  | p :: l' => p ++ List.concat (map (fun q => c :: q) l')
  end.

(** The same letter but for its case *)
Definition same_letter (x y : N) : Prop :=
  x = y \/ exists i, nth_error capitals i = Some x /\ nth_error smalls i = Some y \/ nth_error smalls i = Some x /\ nth_error capitals i = Some y.
