(** Runs of several threads with the mutexes of the client. *)
From Coq Require Import NArith List Bool.
From Verif.Model Require Import Locks.
Import ListNotations.

(** The code of the application that thread [i] calls next, if any. *)
Definition calls (i : nat) (s : list thread) (c : cb) : Prop :=
  exists t p, nth_error s i = Some t /\ todo t = Call c :: p.

(** [reach may s s']: the threads get from [s] to [s']; code of the application [c] does [q] only if [may c q]. *)
Inductive reach (may : cb -> list act -> Prop) (s : list thread) : list thread -> Prop :=
| reach_here : reach may s s
| reach_step (i : nat) (q : list act) (s1 s2 : list thread) :
    reach may s s1 -> (forall c, calls i s1 c -> may c q) -> step i q s1 = Some s2 -> reach may s s2.

(** Thread [i] can take its next step. *)
Definition can_step (may : cb -> list act -> Prop) (i : nat) (s : list thread) : Prop :=
  exists q s', (forall c, calls i s c -> may c q) /\ step i q s = Some s'.

(** Listeners call any functions of the interface; storages and loggers do not call the client. *)
Definition polite (c : cb) (q : list act) : Prop :=
  match c with
  | CListener => exists fs : list api, q = flat_map api_acts fs
  | CStorage | CLogger => q = []
  end.
(** The same with storages (loggers) that call the client as well. *)
Definition talking_storage (c : cb) (q : list act) : Prop :=
  match c with
  | CListener | CStorage => exists fs : list api, q = flat_map api_acts fs
  | CLogger => q = []
  end.
Definition talking_logger (c : cb) (q : list act) : Prop :=
  match c with
  | CListener | CLogger => exists fs : list api, q = flat_map api_acts fs
  | CStorage => q = []
  end.

Definition start (fss : list (list fn)) : list thread := map thread_new fss.
(** A thread that has something left to do. *)
Definition busy (i : nat) (s : list thread) : Prop := exists t, nth_error s i = Some t /\ todo t <> [].
