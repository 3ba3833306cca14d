(** The mutexes of the client: C115, C116.

    [start fss]: one thread for every element of [fss], which runs the functions listed there. [reach may (start fss) s]:
    the threads, interleaved in any way, have come to [s]. *)
From Coq Require Import List Bool.
From Verif.Model Require Import Locks.
From Verif.Spec Require Import LocksSpec.
From Verif.Proofs Require Import LocksPf.
Import ListNotations.

(** C115: a thread with work left can always be brought to its next step by steps of the others. *)
Theorem C115_progress :
  forall (fss : list (list fn)) (s : list thread) (i : nat) (t : thread),
    reach polite (start fss) s -> nth_error s i = Some t -> todo t <> [] ->
    exists s', reach polite s s' /\ nth_error s' i = Some t /\ can_step polite i s'.
Proof. exact client_progress. Qed.
Print Assumptions C115_progress.

Theorem C115_exclusive :
  forall (fss : list (list fn)) (s : list thread) (i j : nat) (t u : thread) (l : lock),
    reach polite (start fss) s -> nth_error s i = Some t -> nth_error s j = Some u ->
    In l (held t) -> In l (held u) -> i = j.
Proof. exact client_exclusive. Qed.
Print Assumptions C115_exclusive.

Theorem C115_released :
  forall (fss : list (list fn)) (s : list thread) (i : nat) (t : thread),
    reach polite (start fss) s -> nth_error s i = Some t -> todo t = [] -> held t = [].
Proof. exact client_clean. Qed.
Print Assumptions C115_released.

(** Threads do block each other: a scanner updates the table and logs it, a connection waits for the application context. *)
Definition ex_threads : list (list fn) :=
  [[FScanner true true 1 1 [true; false] (Some (2, 7, true, true)) 0]; [FPoll 0 [(HStatus, ([3], true)); (HConnect true false 0, ([], false))]]].
Definition ex_run : list (nat * list act) :=
  map (fun i => (i, [])) (repeat 0 10) ++ [(0, api_acts (ApiServices 0))] ++ map (fun i => (i, [])) (repeat 0 20 ++ repeat 1 4).
Example C115_blocked :
  match play ex_run (start ex_threads) with
  | Some s => good polite ex_run (start ex_threads) /\ step 1 [] s = None /\ busy 1 s /\ step 0 [] s <> None
  | None => False
  end.
Proof.
  vm_compute. repeat split; try discriminate.
  - exists [ApiServices 0]. reflexivity.
  - eexists. split; [reflexivity|]. discriminate.
Qed.

(** C116: listeners are called without any lock held, so they may use the client. *)
Theorem C116_listeners_partial :
  forall (fss : list (list fn)) (s : list thread) (i : nat) (t : thread) (p : list act),
    reach polite (start fss) s -> nth_error s i = Some t -> todo t = Call CListener :: p -> held t = [].
Proof. exact client_listener. Qed.
Print Assumptions C116_listeners_partial.
Example C116_called :
  match play (firstn 10 ex_run) (start ex_threads) with Some s => calls 0 s CListener | None => False end.
Proof. vm_compute. eexists. eexists. split; reflexivity. Qed.

(** A storage that uses the client blocks its thread for ever. *)
Theorem C116_storage_refuted :
  exists (fss : list (list fn)) (s : list thread),
    reach talking_storage (start fss) s /\ busy 0 s /\
    forall s', reach talking_storage s s' -> ~ can_step talking_storage 0 s'.
Proof. exact storage_stuck. Qed.
Print Assumptions C116_storage_refuted.

(** A log callback that uses the client can block all threads for ever. *)
Theorem C116_logger_refuted :
  exists (fss : list (list fn)) (s : list thread),
    reach talking_logger (start fss) s /\ busy 0 s /\ busy 1 s /\
    forall s' i, reach talking_logger s s' -> ~ can_step talking_logger i s'.
Proof. exact logger_stuck. Qed.
Print Assumptions C116_logger_refuted.
