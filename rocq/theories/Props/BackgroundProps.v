(** Properties of the background tasks: C47-C49 and C72.

    [background feature discovery es = (b, h)]: the client, built with or without the scanner and started with
    or without discovery, went through the events [es] (commands from the API, the server and the timer, steps
    of the command handler, steps of scanner threads, closing), with history [h]. *)
From Coq Require Import NArith ZArith List Bool.
From Verif.Model Require Import Client Background.
From Verif.Spec Require Import ClientSpec BackgroundSpec.
From Verif.Proofs Require Import BackgroundProofs.
Import ListNotations.
Local Open Scope Z_scope.

(** C47: at most one scan at a time. *)
Theorem C47_one_scan :
  forall (f d : bool) (es : list bev) (b : bg) (h : list bobs) (t0 : Z),
    background f d es = (b, h) -> ascending t0 (clock es) -> (length (scans_going h) <= 1)%nat.
Proof. exact one_scan. Qed.
Print Assumptions C47_one_scan.

(** C47: a scan starts only if none is going on, a periodic scan only 300 s after the end of the last one. *)
Theorem C47_start :
  forall (f d : bool) (es : list bev) (b : bg) (h : list bobs) (t0 : Z) (h1 : list bobs) (t : Z) (p : bool) (id : N) (h2 : list bobs),
    background f d es = (b, h) -> ascending t0 (clock es) -> h = h1 ++ OStart t p id :: h2 ->
    scans_going h1 = [] /\ (p = true -> forall t' id', In (OGone t' id') h1 -> 300 * SEC <= t - t').
Proof. exact scan_start. Qed.
Print Assumptions C47_start.

(** C47: the command handler never waits for a thread that is still running. *)
Theorem C47_no_blocking :
  forall (f d : bool) (es : list bev) (b : bg) (h : list bobs) (t0 : Z) (id : N) (running : bool),
    background f d es = (b, h) -> ascending t0 (clock es) -> In (OJoin id running) h -> running = false.
Proof. exact no_blocking. Qed.
Print Assumptions C47_no_blocking.

(** A scan, a request while it runs, its end, a periodic scan too early and one in time. *)
Definition ex_scans : list bev :=
  [EvApi CScan; EvHandle 1; EvThread 0 SBegin; EvServer CScan; EvHandle 2; EvThread 0 SFinish; EvThread 0 (SReport 3); EvHandle 4;
   EvTimer; EvHandle 5; EvTimer; EvHandle (310 * SEC)].
Example C47_check :
  snd (background true true ex_scans) =
    [OStart 1 false 0; OScanning true; OScanning false; OGone 3 0; OJoin 0 false; OStart (310 * SEC) true 1] /\
  ascending 0 (clock ex_scans).
Proof. split; [reflexivity|]. cbn. repeat split; discriminate. Qed.

(** C48, refuted: after a crash of the scanner thread the client reports a scan for ever and no scan is
    ever started again. *)
Theorem C48_crash_refuted :
  exists (f d : bool) (es : list bev), clock es <> [] /\ ascending 0 (clock es) /\
    reported_scanning (snd (background f d es)) = true /\ scans_going (snd (background f d es)) = [] /\
    forall es' : list bev, ascending 0 (clock (es ++ es')) ->
      existsb is_start (snd (bg_run (fst (background f d es)) es')) = false /\
      reported_scanning (snd (background f d (es ++ es'))) = true.
Proof. exact crash_refuted. Qed.
Print Assumptions C48_crash_refuted.

(** C48, as long as no scanner thread crashes: without a scan going on, none is reported. *)
Theorem C48_quiet_partial :
  forall (f d : bool) (es : list bev) (b : bg) (h : list bobs) (t0 : Z),
    background f d es = (b, h) -> ascending t0 (clock es) -> crashed h = false -> scans_going h = [] -> reported_scanning h = false.
Proof. exact quiet_state. Qed.
Print Assumptions C48_quiet_partial.

(** C48: the thread of a scan can always end it (successfully or not) whatever else happens. *)
Theorem C48_scan_ends_partial :
  forall (f d : bool) (es : list bev) (b : bg) (h : list bobs) (t0 : Z) (id : N) (t : Z),
    background f d es = (b, h) -> ascending t0 (clock (es ++ [EvThread id (SReport t)])) -> crashed h = false -> scans_going h = [id] ->
    let '(b', h') := background f d (es ++ [EvThread id SBegin; EvThread id SFinish; EvThread id (SReport t)]) in
    scans_going h' = [] /\ crashed h' = false /\ In (OGone t id) h' /\ reported_scanning h' = false.
Proof. exact scan_ends. Qed.
Print Assumptions C48_scan_ends_partial.

(** C48: the command handler handles one event at every step. *)
Theorem C48_handler_progress :
  forall (d : bool) (es : list bev) (t0 t : Z),
    ascending t0 (clock es) -> let b := fst (background true d es) in
    length (b_queue (fst (background true d (es ++ [EvHandle t])))) = pred (length (b_queue b)).
Proof. exact handler_progress. Qed.
Print Assumptions C48_handler_progress.

(** C48: a request made when no scan is going on and all events have been handled starts a scan. *)
Theorem C48_served_partial :
  forall (es : list bev) (b : bg) (h : list bobs) (t0 t : Z),
    background true true es = (b, h) -> ascending t0 (clock es) -> crashed h = false -> scans_going h = [] ->
    b_queue b = [] -> b_client b = true ->
    exists id : N, snd (background true true (es ++ [EvApi CScan; EvHandle t])) = h ++ [OStart t false id].
Proof. exact request_served'. Qed.
Print Assumptions C48_served_partial.
(** C48: the timer starts a scan if no scan is going on and nothing has happened in the last 300 s. *)
Theorem C48_periodic_partial :
  forall (es : list bev) (b : bg) (h : list bobs) (t0 t : Z),
    background true true es = (b, h) -> ascending t0 (clock es) -> crashed h = false -> scans_going h = [] ->
    b_queue b = [] -> ~ In EvClose es -> (forall t', In t' (clock es) -> 300 * SEC <= t - t') ->
    exists id : N, snd (background true true (es ++ [EvTimer; EvHandle t])) = h ++ [OStart t true id].
Proof. exact periodic_served. Qed.
Print Assumptions C48_periodic_partial.
Example C48_check :
  let es := [EvApi CScan; EvHandle 1; EvThread 0 SBegin; EvThread 0 SFinish; EvThread 0 (SReport 3); EvHandle 4] in
  let b := fst (background true true es) in let h := snd (background true true es) in
  h = [OStart 1 false 0; OScanning true; OScanning false; OGone 3 0; OJoin 0 false] /\
  crashed h = false /\ scans_going h = [] /\ b_queue b = [] /\ b_client b = true /\
  snd (background true true (es ++ [EvApi CScan; EvHandle 5])) = h ++ [OStart 5 false 1].
Proof. repeat split. Qed.

(** C49, refuted: the command handler never ends although the client has been closed, the other tasks have
    ended and nothing is left to do. *)
Theorem C49_handler_refuted :
  exists (f d : bool) (es : list bev), In EvClose es /\ In EvMain es /\ In EvPeriodic es /\
    (let b := fst (background f d es) in
     b_client b = false /\ b_main b = TkEnded /\ b_periodic b = TkEnded /\ b_queue b = [] /\
     forallb (fun p => negb (alive (snd p))) (b_threads b) = true) /\
    forall es' : list bev, b_handler (fst (background f d (es ++ es'))) = true.
Proof. exact handler_immortal. Qed.
Print Assumptions C49_handler_refuted.

(** C49: the connection task and the periodic task end the next time they run after the client is closed. *)
Theorem C49_tasks_partial :
  forall (f d : bool) (es1 es2 : list bev),
    let b := fst (background f d (es1 ++ EvClose :: es2)) in
    b_client b = false /\ (In EvMain es2 -> b_main b = TkEnded) /\ (In EvPeriodic es2 -> b_periodic b = TkEnded).
Proof. exact tasks_end. Qed.
Print Assumptions C49_tasks_partial.
Example C49_check : b_main (fst (background true true (ex_scans ++ [EvClose; EvMain]))) = TkEnded /\
  b_periodic (fst (background true true (ex_scans ++ [EvClose; EvMain]))) <> TkEnded.
Proof. split; [reflexivity|discriminate]. Qed.

(** C72, as long as the runtime of the client runs (its end is in RuntimeProps.v): sending a command never fails
    ([OBroken] is the panic of an `unwrap` on a send). *)
Theorem C72_channel_partial :
  forall (f d : bool) (es : list bev), ~ In OBroken (snd (background f d es)).
Proof. exact channel_whole. Qed.
Print Assumptions C72_channel_partial.
(** Sending to a handler that has ended would show. *)
Example C72_check : forall b : bg, b_handler b = false -> b_client b = true -> snd (bg_step b (EvApi CScan)) = [OBroken].
Proof. intros b H1 H2. cbn [bg_step]. rewrite H2. unfold push. now rewrite H1. Qed.
