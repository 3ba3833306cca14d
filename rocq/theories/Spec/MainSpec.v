(** Reading the history of the main task. *)
From Coq Require Import NArith ZArith List Bool.
From Verif.Model Require Import Bytes Client MainTask.
From Verif.Spec Require Import ClientSpec.
Import ListNotations.
Local Open Scope Z_scope.

(** An attempt and the next one: times and addresses, the result in between, when it came, and the end
    of the sleep in between, if any. *)
Record gap := {
  g_start : Z;
  g_addr : bytes;
  g_end : Z;
  g_result : cresult;
  g_sleep : option Z;
  g_next : Z;
  g_next_addr : bytes
}.

(** State of reading: the attempt started last, its result, and the sleep after it. *)
Record reading := { rd_attempt : option (Z * bytes); rd_result : option (Z * cresult); rd_sleep : option Z }.
Definition read_step (r : reading) (x : mtobs) : reading * list gap :=
  match x with
  | TAttempt t a =>
      ({| rd_attempt := Some (t, a); rd_result := None; rd_sleep := None |},
       match rd_attempt r, rd_result r with
       | Some (t1, a1), Some (te, res) =>
           [{| g_start := t1; g_addr := a1; g_end := te; g_result := res; g_sleep := rd_sleep r; g_next := t; g_next_addr := a |}]
       | _, _ => []
       end)
  | TResult t res => ({| rd_attempt := rd_attempt r; rd_result := Some (t, res); rd_sleep := rd_sleep r |}, [])
  | TWait u => ({| rd_attempt := rd_attempt r; rd_result := rd_result r; rd_sleep := Some u |}, [])
  | _ => (r, [])
  end.
Fixpoint read_all (r : reading) (h : list mtobs) : reading * list gap :=
  match h with
  | [] => (r, [])
  | x :: h' => let '(r1, g1) := read_step r x in let '(r2, g2) := read_all r1 h' in (r2, g1 ++ g2)
  end.
Definition nothing_yet : reading := {| rd_attempt := None; rd_result := None; rd_sleep := None |}.
Definition gaps (h : list mtobs) : list gap := snd (read_all nothing_yet h).
Definition now_at (h : list mtobs) : reading := fst (read_all nothing_yet h).

(** Readings of the clock. *)
Definition main_times (h : list mtobs) : list Z :=
  flat_map (fun x => match x with TAttempt t _ => [t] | TResult t _ => [t] | _ => [] end) h.

(** The state reported last. *)
Definition reported (h : list mtobs) : cstate :=
  fold_left (fun s x => match x with TState s' => s' | _ => s end) h Disconnected.

(** The history of the current connection. *)
Definition current_conn (h : list mtobs) : list cobs :=
  fold_left (fun c x => match x with TAttempt _ _ => [] | TConn o => c ++ [o] | _ => c end) h [].

(** A registered connection exists: an attempt is going on and its connection is registered. *)
Definition online (h : list mtobs) : Prop :=
  (exists t a, rd_attempt (now_at h) = Some (t, a)) /\ rd_result (now_at h) = None /\ registered (current_conn h) = true.

Definition is_attempt (x : mtobs) : bool := match x with TAttempt _ _ => true | _ => false end.
Definition exits (h : list mtobs) : list N := flat_map (fun x => match x with TExit c => [c] | _ => [] end) h.

(** What the service says first about the registration: the code of the acknowledgement, if it is one. *)
Definition service_verdict (h : list cobs) : option N :=
  match received h with
  | (_, m) :: _ =>
      match read_ack m with
      | Some (id, code) => if (id =? REGISTER_ID)%N then Some code else None
      | None => None
      end
  | [] => None
  end.

(** The connection is told about the mode of the application. *)
Definition told_mode (d : bool) (h : list mtobs) : Prop :=
  forall e m, In (TConn (XRecv e m)) h -> e_diagnostic e = d.

(** Retry delay after an unauthorized verdict at [now], for a task started at [t0]. *)
Definition pairing_delay (t0 now : Z) : option Z :=
  if now <? t0 + 600 * SEC then Some (10 * SEC)
  else if now <? t0 + 1200 * SEC then Some (30 * SEC)
  else None.
