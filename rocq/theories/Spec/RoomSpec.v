(** When the service table can stop the program. *)
From Coq Require Import String NArith ZArith List Bool.
From Verif.Model Require Import Bytes Service Alist SvcTable TableJson Config Start.
From Verif.Spec Require Import DocSpec.
Import ListNotations.
Local Open Scope N_scope.

(** What every table satisfies, whatever the documents it was read from: each entry has its own ID, and each known
    identity leads to an entry. *)
Definition sound (t : table) : Prop :=
  NoDup (map fst (t_map t)) /\ (forall id, In id (map fst (t_map t)) -> id < 65536) /\
  (forall k id, ilookup k (t_idents t) = Some id -> In id (map fst (t_map t))).
Definition size (t : table) : N := nlen (t_map t).

(** The document of a file lists at most [n] services (a file without a document does). *)
Definition lists_at_most (d : option json) (n : N) : Prop :=
  forall o v l, d = Some (JObj o) -> field "svc_table" o v -> services v l -> nlen l <= n.

(** The lock file and the log file, if there are to be any, can be had. *)
Definition may_begin (ph : paths) (lk : luck) : Prop :=
  (ph_lock ph = None \/ lk_create lk = true /\ lk_lock lk = true) /\ (ph_log ph = None \/ lk_log lk = true).
