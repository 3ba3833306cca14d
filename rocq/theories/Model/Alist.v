(** Association lists with numeric keys: the model of Rust hash maps. *)
From Coq Require Import NArith List.
Import ListNotations.
Local Open Scope N_scope.

Section Alist.
  Context {V : Type}.

  Fixpoint alookup (k : N) (l : list (N * V)) : option V :=
    match l with
    | [] => None
    | (k', v) :: l' => if N.eqb k k' then Some v else alookup k l'
    end.

  (** `HashMap::insert`: replace or add. *)
  Fixpoint ainsert (k : N) (v : V) (l : list (N * V)) : list (N * V) :=
    match l with
    | [] => [(k, v)]
    | (k', v') :: l' => if N.eqb k k' then (k, v) :: l' else (k', v') :: ainsert k v l'
    end.

  (** `HashMap::remove`. *)
  Definition aremove (k : N) (l : list (N * V)) : list (N * V) :=
    filter (fun e => negb (N.eqb k (fst e))) l.
End Alist.
