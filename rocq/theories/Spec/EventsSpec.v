(** What listeners should see. *)
From Coq Require Import NArith List Bool.
From Verif.Model Require Import MainTask Events.
Import ListNotations.
Local Open Scope N_scope.

Definition added (h : list eobs) : list N := flat_map (fun x => match x with AAdded l => [l] | _ => [] end) h.

(** What listener [l] saw. *)
Definition seen (l : N) (h : list eobs) : list change :=
  flat_map (fun x => match x with ANotified l' c => if l =? l' then [c] else [] | _ => [] end) h.

(** All changes after the registration of [l]. *)
Definition expected_step (l : N) (acc : bool * list change) (x : eobs) : bool * list change :=
  match x with
  | AAdded l' => (fst acc || (l =? l'), snd acc)
  | AChange c => (fst acc, if fst acc then snd acc ++ [c] else snd acc)
  | _ => acc
  end.
Definition expected (l : N) (h : list eobs) : list change := snd (fold_left (expected_step l) h (false, [])).

(** Calls that have changed the state and not returned yet. *)
Definition going_step (n : nat) (x : eobs) : nat :=
  match x with AChange _ => S n | AReturned => pred n | _ => n end.
Definition going (h : list eobs) : nat := fold_left going_step h O.

(** No change happens while the listeners are being notified of another one. *)
Fixpoint one_by_one_from (n : nat) (h : list eobs) : bool :=
  match h with
  | [] => true
  | x :: h' => match x with AChange _ => Nat.eqb n 0 | _ => true end && one_by_one_from (going_step n x) h'
  end.
Definition one_by_one (h : list eobs) : bool := one_by_one_from O h.

(** [p] is [q] with some elements left out. *)
Inductive subseq {A} : list A -> list A -> Prop :=
| ss_nil : subseq [] []
| ss_keep x p q : subseq p q -> subseq (x :: p) (x :: q)
| ss_skip x p q : subseq p q -> subseq p (x :: q).
