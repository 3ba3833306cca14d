(** Reading the history of the background tasks. *)
From Coq Require Import NArith ZArith List Bool.
From Verif.Model Require Import Client Background.
Import ListNotations.
Local Open Scope N_scope.

(** Scans going on: started, neither finished nor crashed. *)
Definition scans_going (h : list bobs) : list N :=
  fold_left (fun l x => match x with
                        | OStart _ _ id => id :: l
                        | OGone _ id | OCrash id => filter (fun y => negb (y =? id)) l
                        | _ => l
                        end) h [].

Definition crashed (h : list bobs) : bool := existsb (fun x => match x with OCrash _ => true | _ => false end) h.

(** The scanner state reported last. *)
Definition reported_scanning (h : list bobs) : bool :=
  fold_left (fun s x => match x with OScanning s' => s' | _ => s end) h false.

(** Readings of the clock. *)
Definition clock (es : list bev) : list Z :=
  flat_map (fun e => match e with EvHandle t => [t] | EvThread _ (SReport t) => [t] | _ => [] end) es.

Definition is_start (x : bobs) : bool := match x with OStart _ _ _ => true | _ => false end.
