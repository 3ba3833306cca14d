(** The end of a connection. *)
From Coq Require Import NArith ZArith List Bool.
From Verif.Model Require Import Bytes Client Finish.
Import ListNotations.
Local Open Scope Z_scope.

Definition eev_time (e : eev) : Z :=
  match e with ESent _ t | EBroken t | EWatch t | EShut t | ETimer t => t end.

(** The bytes that the stream was ready to take. *)
Definition accepted (es : list eev) : nat := fold_right (fun e n => match e with ESent k _ => (k + n)%nat | _ => n end) 0%nat es.
Definition was_sent (es : list eev) : bool := existsb (fun e => match e with ESent _ _ => true | _ => false end) es.
Definition was_watched (es : list eev) : bool := existsb (fun e => match e with EWatch _ => true | _ => false end) es.

(** The write error that counts: the first write error comes before the watchdog has woken up and before the stream has taken the
    [len] bytes of the buffer. *)
Definition broken_early (len : nat) (es : list eev) : Prop :=
  exists es1 t es2, es = es1 ++ EBroken t :: es2 /\ was_watched es1 = false /\ (was_sent es1 = false \/ (accepted es1 < len)%nat).
