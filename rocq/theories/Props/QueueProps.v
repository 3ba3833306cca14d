(** The control messages that wait to be sent: C114.

    [connection t i v1 v2 es = (k, h)]: a connection went through the events [es] (polls, watchdog ticks,
    progress of the sessions' transports) and is now in state [k] with history [h]. *)
From Coq Require Import NArith ZArith List Bool.
From Verif.Model Require Import Bytes Frame Service Control Alist Session Manager Client.
From Verif.Spec Require Import SessionSpec ManagerSpec ClientSpec QueueSpec.
From Verif.Proofs Require Import ClientPropsPf2 QueuePf.
Import ListNotations.
Local Open Scope N_scope.

(** C114 *)
Theorem C114_unconfirmed :
  forall (t : Z) (i : identity) (v1 v2 : view) (es : list kev) (k : conn) (h : list cobs),
    connection t i v1 v2 es = (k, h) -> k_result k = None -> (length (c_acks (k_ctx k)) <= 1)%nat.
Proof. intros t i v1 v2 es k h H R. exact (proj2 (backlog_bound t i v1 v2 es k h H R)). Qed.
Print Assumptions C114_unconfirmed.

Theorem C114_backlog :
  forall (t : Z) (i : identity) (v1 v2 : view) (es : list kev) (k : conn) (h : list cobs),
    connection t i v1 v2 es = (k, h) -> k_result k = None -> (backlog k <= 1 + updates h)%nat.
Proof. intros t i v1 v2 es k h H R. exact (proj1 (backlog_bound t i v1 v2 es k h H R)). Qed.
Print Assumptions C114_backlog.

(** Messages of the server alone add nothing: an UPDATE takes a watchdog tick. *)
Theorem C114_updates :
  forall (t : Z) (i : identity) (v1 v2 : view) (es : list kev) (k : conn) (h : list cobs),
    connection t i v1 v2 es = (k, h) -> (updates h <= ticks es)%nat.
Proof. exact updates_ticks. Qed.
Print Assumptions C114_updates.

(** The bound is reached: an UPDATE is queued behind the PING of the same tick. Then further CONNECT messages
    cannot make the queue longer: each poll takes a waiting message. *)
Definition ex_later : view := {| v_visible := [(5, tcp1 9)]; v_version := 2; v_get := v_get view9 |}.
Definition ex_busy : list kev := up_events ++ [KTick (61 * SEC) ex_later ex_later ex_later].
Example C114_reached :
  let '(k, h) := connection 0 race_id view9 view9 ex_busy in
  k_result k = None /\ backlog k = 2%nat /\ updates h = 1%nat /\ length (c_acks (k_ctx k)) = 1%nat.
Proof. vm_compute. repeat split; reflexivity. Qed.
Example C114_flood :
  let flood := [SMsg (62 * SEC) (env0 view9) (connect_msg 0); SMsg (62 * SEC) (env0 view9) (connect_msg 0);
                SMsg (62 * SEC) (env0 view9) (connect_msg 0)] in
  let '(k, h) := connection 0 race_id view9 view9 (ex_busy ++ [KPoll flood; KPoll flood; KPoll flood; KPoll flood]) in
  k_result k = None /\ (backlog k <= 2)%nat /\ updates h = 1%nat.
Proof. vm_compute. repeat split; repeat constructor. Qed.
