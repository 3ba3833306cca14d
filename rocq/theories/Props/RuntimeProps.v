(** Properties of a client with the runtime it is run by, as from the C interface: C49, C72 and C124.

    [hosted feature discovery es = (x, h)]: a client went through the events [es] (starting, everything in
    BackgroundProps.v, closing, freeing, the end of its runtime), with history [h]. [h_run x = ROver]: the runtime is
    over, so a blocking start or a join of the handle has returned. *)
From Coq Require Import NArith ZArith List Bool.
From Verif.Model Require Import Client Background Runtime.
From Verif.Spec Require Import BackgroundSpec RuntimeSpec.
From Verif.Proofs Require Import RuntimePf.
Import ListNotations.
Local Open Scope N_scope.

(** C72, refuted: a scan that is going on when the client is freed cannot report its end; its thread panics on the
    broken channel (with `panic = "abort"`, as in release builds, the whole application aborts). *)
Theorem C72_report_refuted :
  exists es : list rev, In OBroken (snd (hosted true true es)).
Proof. exact sends_refuted. Qed.
Print Assumptions C72_report_refuted.

(** C72: no other send ever fails, neither of the API nor of the server nor of the timer. *)
Theorem C72_commands_partial :
  forall (f d : bool) (es : list rev) (x : host) (h : list bobs) (e : rev),
    hosted f d es = (x, h) -> In OBroken (snd (host_step x e)) ->
    h_run x = ROver /\ exists (id : N) (t : Z), e = RBg (EvThread id (SReport t)).
Proof. exact broken_only. Qed.
Print Assumptions C72_commands_partial.

(** C49: all tasks, the command handler too, end with the runtime, which can end as soon as the client is closed ... *)
Theorem C49_runtime_partial :
  forall (f d : bool) (es : list rev) (x : host) (h : list bobs),
    hosted f d es = (x, h) -> h_run x = RRunning -> b_client (h_bg x) = false ->
    let x' := fst (hosted f d (es ++ [RBg EvMain; REnd])) in
    h_run x' = ROver /\ b_main (h_bg x') = TkEnded /\ b_periodic (h_bg x') = TkEnded /\ b_handler (h_bg x') = false.
Proof. exact can_end. Qed.
Print Assumptions C49_runtime_partial.

(** ... and ends only if the application closed or freed the client. *)
Theorem C49_told :
  forall (f d : bool) (es : list rev) (x : host) (h : list bobs),
    hosted f d es = (x, h) -> h_run x = ROver -> told_to_stop es.
Proof. exact only_if_told. Qed.
Print Assumptions C49_told.

(** C124, refuted: after the client was freed and the join handle awaited, the callback of the application is called
    (with its opaque pointer) by the thread of a scan, which then panics. *)
Theorem C124_callback_refuted :
  exists (es es' : list rev) (x : host) (h : list bobs),
    hosted true true es = (x, h) /\ h_run x = ROver /\ h_freed x = true /\
    existsb is_callback (snd (host_run x es')) = true /\ In OBroken (snd (host_run x es')).
Proof. exact callback_refuted. Qed.
Print Assumptions C124_callback_refuted.

(** C124: if no scan is going on at the end, nothing happens any more, whatever the application does. *)
Theorem C124_silent_partial :
  forall (f d : bool) (es : list rev) (x : host) (h : list bobs),
    hosted f d es = (x, h) -> h_run x = ROver -> scans_going h = [] ->
    forall es' : list rev, snd (host_run x es') = [].
Proof. exact silent_after. Qed.
Print Assumptions C124_silent_partial.

Example C124_case :
  let es := [RStart; RBg (EvApi CScan); RBg (EvHandle 1); RBg (EvThread 0 SBegin); RBg (EvThread 0 SFinish);
             RBg (EvThread 0 (SReport 2)); RBg (EvApi CScan); RBg EvClose] in
  let x := fst (hosted true true es) in
  let y := hosted true true (es ++ [RBg EvMain; REnd; RFree]) in
  h_run x = RRunning /\ b_client (h_bg x) = false /\ h_run (fst y) = ROver /\ h_freed (fst y) = true /\
  snd y = [OStart 1 false 0; OScanning true; OScanning false; OGone 2 0] /\ scans_going (snd y) = [] /\
  snd (host_run (fst y) [RBg (EvApi CScan); RBg (EvThread 0 SBegin); RBg (EvHandle 3)]) = [].
Proof. vm_compute. repeat split. Qed.
