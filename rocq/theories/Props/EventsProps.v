(** Property of listeners: C50.

    [app_run appctx_new es = (a, h)]: an application context went through [es] (state changes, calls of
    listeners, ends of calls and registrations in any interleaving of threads). Listeners are numbered, every
    one is registered once. [expected l h] are the changes after the registration of [l], [seen l h] those it was
    told, [going h] the calls that have not returned. *)
From Coq Require Import NArith List Bool.
From Verif.Model Require Import MainTask Events.
From Verif.Spec Require Import EventsSpec.
From Verif.Proofs Require Import EventsProofs.
Import ListNotations.
Local Open Scope N_scope.

(** C50, refuted: a change made while the listeners are told about another one is lost. *)
Theorem C50_concurrent_refuted :
  exists (es : list aev) (a : appctx) (h : list eobs) (l : N),
    app_run appctx_new es = (a, h) /\ NoDup (added h) /\ In l (added h) /\ going h = 0%nat /\
    length (seen l h) = 1%nat /\ length (expected l h) = 2%nat.
Proof. exact lost. Qed.
Print Assumptions C50_concurrent_refuted.

(** C50: in every interleaving a listener sees changes after its registration only, in their order and each
    at most once. *)
Theorem C50_order_partial :
  forall (es : list aev) (a : appctx) (h : list eobs) (l : N),
    app_run appctx_new es = (a, h) -> NoDup (added h) -> subseq (seen l h) (expected l h).
Proof. exact in_order. Qed.
Print Assumptions C50_order_partial.

(** C50: if changes do not overlap, every listener sees all changes after its registration; during a call
    all but the one being reported. *)
Theorem C50_complete_partial :
  forall (es : list aev) (a : appctx) (h : list eobs) (l : N),
    app_run appctx_new es = (a, h) -> NoDup (added h) -> one_by_one h = true -> In l (added h) ->
    (seen l h = expected l h \/ exists c, going h = 1%nat /\ expected l h = seen l h ++ [c]) /\
    (going h = 0%nat -> seen l h = expected l h).
Proof. exact complete. Qed.
Print Assumptions C50_complete_partial.

Definition ex_changes : list aev :=
  [EvAdd 7; EvSet (ChConnection Connected); EvNotify 0; EvAdd 8; EvReturn 0; EvSet (ChScanner true); EvNotify 1; EvNotify 1; EvReturn 1].
Example C50_check :
  let h := snd (app_run appctx_new ex_changes) in
  added h = [7; 8] /\ one_by_one h = true /\ going h = 0%nat /\
  expected 7 h = [ChConnection Connected; ChScanner true] /\ expected 8 h = [ChScanner true].
Proof. repeat split. Qed.
