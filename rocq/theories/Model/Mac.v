(** Textual form of MAC addresses. *)
From Coq Require Import NArith List Bool.
From Verif.Model Require Import Bytes Text.
Import ListNotations.
Local Open Scope N_scope.

(** src/net/raw/ether/mod.rs:105-117, `Display for MacAddr` *)
Definition mac_print (m : N) : bytes := join [58] (map hex2 (to_be 6 m)).

Fixpoint all_some {A : Type} (l : list (option A)) : option (list A) :=
  match l with
  | [] => Some []
  | None :: _ => None
  | Some x :: l' => match all_some l' with Some r => Some (x :: r) | None => None end
  end.

(** src/net/raw/ether/mod.rs:119-147, `FromStr for MacAddr` *)
Definition mac_parse (s : bytes) : option N :=
  let octets := map (parse_uint 16 255) (split_on 58 s) in
  if N.eqb (nlen octets) 6 then
    match all_some octets with
    | Some l => Some (of_be l)
    | None => None
    end
  else None.
