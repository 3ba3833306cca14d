(** Why connections end: C117 and C118. *)
From Coq Require Import NArith ZArith List Bool Lia.
From Verif.Model Require Import Bytes Frame Service Control Session Manager Client MainTask.
From Verif.Spec Require Import ControlSpec ManagerSpec ClientSpec EndSpec.
From Verif.Proofs Require Import ClientPropsPf2 EndPf.
Import ListNotations.
Local Open Scope N_scope.

(** C117: whenever a connection has ended, one of the nine reasons of [ends_for] can be read off its history and its
    last event. Nothing that happens to a session is among them. *)
Theorem C117_reason :
  forall (t0 : Z) (i : identity) (v1 v2 : view) (es : list kev) (k : conn) (h : list cobs) (r : cresult),
    connection t0 i v1 v2 es = (k, h) -> bytes_received h -> k_result k = Some r ->
    exists es1 e es2 k1 h1, es = es1 ++ e :: es2 /\ connection t0 i v1 v2 es1 = (k1, h1) /\ k_result k1 = None /\
      ends_for e h r.
Proof. exact end_reason. Qed.
Print Assumptions C117_reason.

(** A control message that no server may send ends the connection at once (the other reasons: C26, C27, C28, C31). *)
Theorem C117_malformed :
  forall (t0 : Z) (i : identity) (v1 v2 : view) (es : list kev) (k : conn) (h h1 : list cobs) (en : env) (m : amsg) (h2 : list cobs),
    connection t0 i v1 v2 es = (k, h) -> h = h1 ++ XRecv en m :: h2 -> bytes_received h -> m_service m = 0 ->
    (forall cm, ~ server_message (m_payload m) cm) -> h2 = [] /\ k_result k = Some (Failed OtherError).
Proof. exact malformed_ends. Qed.
Print Assumptions C117_malformed.

Definition ex_end : list kev := up_events ++ [KPoll [SMsg 2 (env0 view9) (control_msg [0; 1; 0; 2])]].
Example C117_case :
  let '(k, h) := connection 0 race_id view9 view9 ex_end in
  k_result k = Some (Failed OtherError) /\
  (exists h1, h = h1 ++ [XRecv (env0 view9) (control_msg [0; 1; 0; 2])] /\ registered h1 = true) /\
  forall cm, ~ server_message [0; 1; 0; 2] cm.
Proof.
  vm_compute connection. split; [reflexivity|]. split.
  - eexists (_ :: _ :: _ :: []). split; reflexivity.
  - intros cm H. inversion H; subst; try discriminate.
    match goal with A : In 2 _, B : _ mod 256 = 1 |- _ => rewrite B in A; cbn in A; intuition discriminate end.
Qed.

(** C118: a server that follows the protocol and acknowledges within 20 seconds is never left while the network works. *)
Theorem C118_good_server :
  forall (t0 : Z) (i : identity) (v1 v2 : view) (es : list kev) (k : conn) (h : list cobs),
    connection t0 i v1 v2 es = (k, h) -> bytes_received h -> Forall sound_event es -> polite h -> prompt h ->
    k_result k = None.
Proof. exact good_server. Qed.
Print Assumptions C118_good_server.

(** The main task then makes no further attempt and reports no other state, whatever else happens. *)
Theorem C118_main :
  forall (m : mtask) (t : Z) (i : identity) (v1 v2 : view) (es : list mtev) (k : conn) (h : list cobs),
    mt_phase m = PTls -> connection t i v1 v2 (conn_events es) = (k, h) ->
    bytes_received h -> Forall sound_event (conn_events es) -> polite h -> prompt h ->
    mtask_run m (EvUp t i v1 v2 :: es) = (set_phase m (POnline k), map TConn h).
Proof. exact stays_connected. Qed.
Print Assumptions C118_main.

(** A session, a PING that is acknowledged after 19 seconds, and one more tick. *)
Definition ex_good : list kev :=
  session_events 0 ++ [KTick (60 * SEC) view9 view9 view9; KPoll []; KPoll [SMsg (79 * SEC) (env0 view9) (ack_msg 1 0)];
                       KTick (80 * SEC) view9 view9 view9].
Example C118_case :
  exists k h, connection 0 race_id view9 view9 ex_good = (k, h) /\
  k_result k = None /\ length (received h) = 3%nat /\ Forall sound_event ex_good /\ polite h /\ prompt h.
Proof.
  eexists _, _. split; [vm_compute; reflexivity|].
  split; [reflexivity|]. split; [reflexivity|]. split; [|split].
  - repeat constructor; cbn; intuition discriminate.
  - apply polite_each. cbn [each app].
    repeat match goal with |- _ /\ _ => split end; try exact I; split; intros A.
    all: try (vm_compute in A; congruence).
    all: try (split; vm_compute; reflexivity).
    + intros _. eexists. split; [exact (SM_connect 50 5 7 ltac:(lia) ltac:(lia) ltac:(lia))|].
      split; [discriminate|]. discriminate.
    + intros _. eexists. split; [exact (SM_ack 1 0 ltac:(lia) ltac:(lia))|].
      split; [discriminate|]. intros _. vm_compute. eauto.
  - apply prompt_each. cbn [each app]. repeat match goal with |- _ /\ _ => split end; try exact I; intros t1 id B;
      abstract (vm_compute in B; intuition; try match goal with H : (_, _) = (_, _) |- _ => injection H as <- <- end; vm_compute; reflexivity).
Qed.
