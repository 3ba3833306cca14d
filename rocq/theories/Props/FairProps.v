(** C140: the sessions of a connection get their turn. *)
From Coq Require Import NArith ZArith List Bool Lia.
From Verif.Model Require Import Bytes Frame Service Control Session Manager Client.
From Verif.Spec Require Import ManagerSpec ClientSpec WireSpec FairSpec.
From Verif.Proofs Require Import ClientPropsPf2 FairPf.
Import ListNotations.
Local Open Scope N_scope.

(** A session that has something to report and does not get its turn: every poll of the client sends one of
    the messages that are ahead of it. Ahead are the control messages and rejections that wait, the sessions
    before it in the schedule, and what the client queues meanwhile. The last part depends on the server. *)
Theorem C140_turn_partial :
  forall (t : Z) (i : identity) (v1 v2 : view) (es1 es2 : list kev) (k1 : conn) (h1 : list cobs) (k2 : conn) (h2 : list cobs) (sid : N) (s : sess),
    connection t i v1 v2 es1 = (k1, h1) -> conn_run k1 es2 = (k2, h2) -> k_result k2 = None ->
    session k1 sid = Some s -> has_report s -> ~ hung_up sid h2 -> s_incap s + granted sid h2 < 2 ^ 64 -> ~ had_turn sid h2 ->
    (client_polls es2 <= length (c_messages (k_ctx k1)) + length (g_queue (c_mgr (k_ctx k1)))
                         + position sid (g_order (c_mgr (k_ctx k1))) + length (produced h2) + rejections h2)%nat.
Proof. exact turn. Qed.
Print Assumptions C140_turn_partial.

(** While the server says nothing only the watchdog puts messages ahead of it, two per wake-up. *)
Theorem C140_quiet_partial :
  forall (t : Z) (i : identity) (v1 v2 : view) (es1 es2 : list kev) (k1 : conn) (h1 : list cobs) (k2 : conn) (h2 : list cobs) (sid : N) (s : sess),
    connection t i v1 v2 es1 = (k1, h1) -> conn_run k1 es2 = (k2, h2) -> k_result k2 = None ->
    session k1 sid = Some s -> has_report s -> Forall no_input es2 -> ~ had_turn sid h2 ->
    (client_polls es2 <= length (c_messages (k_ctx k1)) + length (g_queue (c_mgr (k_ctx k1)))
                         + position sid (g_order (c_mgr (k_ctx k1))) + 2 * wakeups es2)%nat.
Proof. exact turn_quiet. Qed.
Print Assumptions C140_quiet_partial.

(** The full claim, a bound that the server cannot move, is false: while it keeps sending PINGs every poll
    sends the answer to one of them, and a session with data and capacity waits as long as that goes on. *)
Theorem C140_refuted :
  forall n : nat, exists (c : conn) (h1 h2 : list cobs) (s : sess),
    connection 0%Z race_id view9 view9 start8 = (c, h1) /\ conn_run c (repeat round8 n) = (c, h2) /\ k_result c = None /\
    session c 7 = Some s /\ s_input s = [9] /\ s_incap s = 65536 /\ has_report s /\
    length (received h2) = n /\ ClientSpec.sent h2 = repeat (amsg_of_cmsg (mk_ack 60 0)) n /\ client_polls (repeat round8 n) = n.
Proof. exact never_turn. Qed.
Print Assumptions C140_refuted.

(** The hypotheses of the first theorem: a session with data while the server asks three times. *)
Example C140_turn_example :
  exists (k2 : conn) (h2 : list cobs) (s : sess),
    conn_run conn8 (repeat round8 3) = (k2, h2) /\ k_result k2 = None /\ session conn8 7 = Some s /\ has_report s /\
    ~ hung_up 7 h2 /\ s_incap s + granted 7 h2 < 2 ^ 64 /\ ~ had_turn 7 h2 /\
    client_polls (repeat round8 3) = 3%nat /\ length (produced h2) = 3%nat /\ rejections h2 = 0%nat.
Proof.
  do 3 eexists. split; [vm_compute; reflexivity|]. split; [reflexivity|]. split; [vm_compute; reflexivity|].
  split; [right; left; split; [discriminate|reflexivity]|].
  split; [intros [o H]; cbn [In] in H; repeat (destruct H as [H|H]; [discriminate H|]); destruct H|].
  split; [reflexivity|]. split; [discriminate|]. repeat split.
Qed.

(** And of the second: the watchdog wakes up and queues a PING, the next poll sends it, the one after that
    takes the data of the session. *)
Definition tick8 : kev := KTick 100000000000%Z view9 view9 view9.
Example C140_quiet_example :
  exists (k2 k3 : conn) (h2 h3 : list cobs) (s : sess),
    conn_run conn8 [tick8; KPoll []] = (k2, h2) /\ k_result k2 = None /\ session conn8 7 = Some s /\ has_report s /\
    Forall no_input [tick8; KPoll []] /\ ~ had_turn 7 h2 /\ length (ClientSpec.sent h2) = 1%nat /\
    conn_run k2 [KPoll []] = (k3, h3) /\ had_turn 7 h3 /\ map m_payload (ClientSpec.sent h3) = [[9]].
Proof.
  do 5 eexists. split; [vm_compute; reflexivity|]. split; [reflexivity|]. split; [vm_compute; reflexivity|].
  split; [right; left; split; [discriminate|reflexivity]|]. split; [repeat constructor|]. split; [discriminate|]. split; [reflexivity|].
  split; [vm_compute; reflexivity|]. split; reflexivity.
Qed.
