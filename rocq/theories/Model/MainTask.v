(** The main task: connecting, retrying, pairing, diagnostic mode. *)
From Coq Require Import NArith ZArith List Bool.
From Verif.Model Require Import Bytes Frame Service Control Session Manager Client.
Import ListNotations.
Local Open Scope Z_scope.

(** src/client.rs:40-43 *)
Definition RETRY_TIMEOUT : Z := 60 * SEC.
Definition PAIRING_MODE_TIMEOUT : Z := 1200 * SEC.

(** src/context.rs:32-37 *)
Inductive cstate := Connected | Disconnected | NotAuthorized.
Definition cstate_eqb (a b : cstate) : bool :=
  match a, b with
  | Connected, Connected | Disconnected, Disconnected | NotAuthorized, NotAuthorized => true
  | _, _ => false
  end.

(** Where the task is: establishing the TLS connection, running the Arrow connection, sleeping until a
    moment, suspended for ever, or the process has exited. *)
Inductive phase := PTls | POnline (k : conn) | PWait (until : Z) | PSuspended | PExited (code : N).

(** src/client.rs:45-56 with the connection state of the application context (src/context.rs:71). The
    configured address does not change. Times are in nanoseconds. *)
Record mtask := {
  mt_default : bytes;
  mt_current : bytes;
  mt_last : Z;
  mt_pairing : Z;
  mt_diag : bool;
  mt_state : cstate;
  mt_phase : phase
}.

(** Observable effects. *)
Inductive mtobs :=
| TAttempt (t : Z) (addr : bytes)      (* a connection attempt starts *)
| TState (s : cstate)                  (* the reported connection state changes *)
| TConn (x : cobs)                     (* an effect of the Arrow connection *)
| TResult (t : Z) (r : cresult)        (* the attempt is over *)
| TWait (until : Z)                    (* the task goes to sleep *)
| TExit (code : N).                    (* the process exits *)

Definition set_phase (m : mtask) (p : phase) : mtask :=
  {| mt_default := mt_default m; mt_current := mt_current m; mt_last := mt_last m; mt_pairing := mt_pairing m;
     mt_diag := mt_diag m; mt_state := mt_state m; mt_phase := p |}.
Definition set_current (m : mtask) (a : bytes) : mtask :=
  {| mt_default := mt_default m; mt_current := a; mt_last := mt_last m; mt_pairing := mt_pairing m;
     mt_diag := mt_diag m; mt_state := mt_state m; mt_phase := mt_phase m |}.
Definition set_last (m : mtask) (t : Z) : mtask :=
  {| mt_default := mt_default m; mt_current := mt_current m; mt_last := t; mt_pairing := mt_pairing m;
     mt_diag := mt_diag m; mt_state := mt_state m; mt_phase := mt_phase m |}.

(** src/context.rs:316-336, `set_connection_state`: nothing happens unless the state changes. The
    listeners are modelled in Model/Events.v. *)
Definition set_state (m : mtask) (s : cstate) : mtask * list mtobs :=
  if cstate_eqb s (mt_state m) then (m, [])
  else ({| mt_default := mt_default m; mt_current := mt_current m; mt_last := mt_last m; mt_pairing := mt_pairing m;
           mt_diag := mt_diag m; mt_state := s; mt_phase := mt_phase m |}, [TState s]).

(** src/client.rs:93-112, `connect` up to the first suspension *)
Definition start_attempt (m : mtask) (t : Z) : mtask * list mtobs :=
  let m1 := set_phase (set_last m t) PTls in
  let '(m2, o) := set_state m1 Connected in
  (m2, TAttempt t (mt_current m) :: o).

(** src/client.rs:151-165 *)
Inductive retry := RTimeout (d : Z) | RSuspend.

(** src/client.rs:177-218, `process_connection_error`. A panic in a connection would end the task; it
    cannot happen (C06), so it is treated like the other kinds. *)
Definition process_connection_error (k : ekind) (last pairing now : Z) : retry :=
  match k with
  | Unauthorized =>
      if now + 600 * SEC <? pairing then RTimeout (10 * SEC)
      else if now <? pairing then RTimeout (30 * SEC)
      else RSuspend
  | UnsupportedProtocolVersion => RSuspend
  | _ => let next := last + RETRY_TIMEOUT in
         if now <? next then RTimeout (next - now) else RTimeout 0
  end.

(** src/client.rs:250-258 *)
Definition diagnose (r : cresult) : N :=
  match r with
  | Redirected _ => 0
  | Failed Unauthorized => 0
  | Failed _ => 1
  end%N.

(** src/client.rs:115-148 and 221-245, `process_result` with `wait_for_retry`, and the next iteration of
    the loop (84-88) if there is no waiting. [now] is the clock when the result is processed (the delay
    until the sleep starts is not modelled: the sleep may only end later), [next] the clock at a new
    attempt. *)
Definition process_result (m : mtask) (r : cresult) (now next : Z) : mtask * list mtobs :=
  if mt_diag m then (set_phase m (PExited (diagnose r)), [TResult now r; TExit (diagnose r)])
  else
    match r with
    | Redirected addr =>
        let '(m1, o) := start_attempt (set_current m addr) next in (m1, TResult now r :: o)
    | Failed k =>
        let '(m1, o1) := set_state m (match k with Unauthorized => NotAuthorized | _ => Disconnected end) in
        let m2 := set_current m1 (mt_default m1) in
        match process_connection_error k (mt_last m2) (mt_pairing m2) now with
        | RTimeout d =>
            if 500000000 <? d then (set_phase m2 (PWait (now + d)), TResult now r :: o1 ++ [TWait (now + d)])
            else let '(m3, o2) := start_attempt m2 next in (m3, TResult now r :: o1 ++ o2)
        | RSuspend => (set_phase m2 PSuspended, TResult now r :: o1)
        end
    end.

(** src/client.rs:63-90: a new task; [t0] and [t] are the first two readings of the clock. *)
Definition mtask_new (t0 t : Z) (addr : bytes) (diag : bool) : mtask * list mtobs :=
  start_attempt {| mt_default := addr; mt_current := addr; mt_last := t0; mt_pairing := t0 + PAIRING_MODE_TIMEOUT;
                   mt_diag := diag; mt_state := Disconnected; mt_phase := PTls |} t.

(** What happens to the task. [EvTls]: the TLS connection cannot be set up (src/net/arrow/mod.rs:681-699:
    kinds other and connection error); [EvUp]: it is up; [EvConn]: an event of the Arrow connection;
    [EvWake]: the sleep ends. Events that do not fit the phase are ignored. *)
Inductive mtev :=
| EvTls (connector : bool) (now next : Z)
| EvUp (t : Z) (i : identity) (v1 v2 : view)
| EvConn (e : kev) (now next : Z)
| EvWake (t : Z).

Definition mtask_step (m : mtask) (e : mtev) : mtask * list mtobs :=
  match mt_phase m, e with
  | PTls, EvTls connector now next =>
      process_result m (Failed (if connector then OtherError else ConnectionError)) now next
  | PTls, EvUp t i v1 v2 =>
      let '(k, o) := conn_new t i v1 v2 in (set_phase m (POnline k), map TConn o)
  | POnline k, EvConn e now next =>
      let '(k1, o) := conn_step k e in
      match k_result k1 with
      | None => (set_phase m (POnline k1), map TConn o)
      | Some r => let '(m1, o1) := process_result m r now next in (m1, map TConn o ++ o1)
      end
  | PWait until, EvWake t => if until <=? t then start_attempt m t else (m, [])
  | _, _ => (m, [])
  end.

Fixpoint mtask_run (m : mtask) (es : list mtev) : mtask * list mtobs :=
  match es with
  | [] => (m, [])
  | e :: es' =>
      let '(m1, o1) := mtask_step m e in
      let '(m2, o2) := mtask_run m1 es' in
      (m2, o1 ++ o2)
  end.

(** A whole history. *)
Definition main_task (t0 t : Z) (addr : bytes) (diag : bool) (es : list mtev) : mtask * list mtobs :=
  let '(m, o) := mtask_new t0 t addr diag in let '(m', o') := mtask_run m es in (m', o ++ o').
