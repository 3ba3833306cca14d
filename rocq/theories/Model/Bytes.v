(** Bytes, fixed-width integers and slices shared by all models.

    A byte is an [N]; all encoders below produce values < 256. *)
From Coq Require Import NArith List Bool String Ascii.
Import ListNotations.
Local Open Scope N_scope.

Definition bytes := list N.

(** A byte string all of whose elements are u8 values. *)
Definition wf_bytes (l : bytes) : Prop := Forall (fun b => b < 256) l.

(** Length of a slice as an unbounded number (models `len()`; usize is not bounded here). *)
Definition nlen {A : Type} (l : list A) : N := N.of_nat (List.length l).

(** `as u8` / `as u16` / `as u32` casts. *)
Definition u8 (n : N) : N := n mod 2 ^ 8.
Definition u16 (n : N) : N := n mod 2 ^ 16.
Definition u32 (n : N) : N := n mod 2 ^ 32.

(** [k]-byte big-endian image of an integer: what `as_bytes` (src/utils/mod.rs:81-85) yields for a
    packed struct field stored with `.to_be()`. *)
Fixpoint to_be (k : nat) (n : N) : bytes :=
  match k with
  | O => []
  | S k' => to_be k' (n / 256) ++ [n mod 256]
  end.

(** Value of a big-endian byte sequence: what `from_be` yields for a packed struct field. *)
Definition of_be (l : bytes) : N := fold_left (fun acc b => acc * 256 + b) l 0.

(** The [len] bytes at offset [off]; models reading a packed struct field at its offset. Only used
    on slices whose length was checked before. *)
Definition field (l : bytes) (off len : nat) : bytes := firstn len (skipn off l).

(** ASCII literal as bytes. *)
Fixpoint lit (s : string) : bytes :=
  match s with
  | EmptyString => []
  | String c s' => N_of_ascii c :: lit s'
  end.

(** Boolean equality of byte strings. *)
Fixpoint beq (a b : bytes) : bool :=
  match a, b with
  | [], [] => true
  | x :: a', y :: b' => N.eqb x y && beq a' b'
  | _, _ => false
  end.

(** Rust `Result` extended with an explicit panic. *)
Inductive result (A : Type) : Type :=
| ROk (a : A)
| RErr
| RPanic.
Arguments ROk {A} _.
Arguments RErr {A}.
Arguments RPanic {A}.
