(** Property C160: the client listens while it waits to send. False: it does not read while its sink is full.

    [wire_connection t i v1 v2 es = Some (q, h)]: a connection went through the events [es] and is now in state [q] with history [h];
    [q_item q]: the message that waits for the sink; [q_buf q]: the write buffer of the sink; [arrived es]: the bytes that came from the
    server; [received h]: the messages that the client handled; [reads b ms rest]: the frames of [b]. *)
From Coq Require Import NArith ZArith List Bool.
From Verif.Model Require Import Bytes Frame Service Control Session Manager Client Wire.
From Verif.Spec Require Import FrameSpec ManagerSpec ClientSpec WireSpec StallSpec.
From Verif.Proofs Require Import ClientPropsPf2 StallPf.
Import ListNotations.
Local Open Scope N_scope.

(** While a message waits for a sink with 8192 bytes or more, nothing that the server sends is handled and nothing new is sent, whatever
    happens and however often the task runs. *)
Theorem C160_deaf_refuted :
  forall (q : wconn) (es : list wev) (q' : wconn) (o : list cobs) (m : amsg),
    q_item q = Some m -> 8192 + N.of_nat (taken es) <= nlen (q_buf q) -> wire_run q es = Some (q', o) ->
    received o = [] /\ sent o = [] /\ q_item q' = Some m /\ q_sock q' = q_sock q ++ reads_in es /\ q_in q' = q_in q.
Proof. intros q es q' o m A B C. exact (deaf es q q' o m A B C). Qed.
Print Assumptions C160_deaf_refuted.

(** So a server that acknowledges in time is left: the PING of second 60 is written, its ACK arrives before second 79, and at second 80 the
    client gives up the connection because the ACK is missing. *)
Theorem C160_left_refuted :
  exists (i : identity) (v : view) (es1 es2 : list wev) (q1 q2 q3 : wconn) (h1 h2 h3 : list cobs) (ping ack : amsg),
    wire_connection 0 i v v es1 = Some (q1, h1) /\ k_result (q_conn q1) = None /\ written_last ping (q_wire q1) /\
    m_payload ping = [0; 1; 0; 1] /\ m_payload ack = [0; 1; 0; 0; 0; 0; 0; 0] /\
    wire_connection 0 i v v (es1 ++ es2) = Some (q2, h2) /\ k_result (q_conn q2) = None /\
    reads (arrived (es1 ++ es2)) (map snd (received h2) ++ [ack]) [] /\
    wire_connection 0 i v v (es1 ++ es2 ++ [WTick (80 * SEC)%Z v v v]) = Some (q3, h3) /\
    last_ping 0 h3 = (60 * SEC)%Z /\ k_result (q_conn q3) = Some (Failed ConnectionError).
Proof. exact stall_left. Qed.
Print Assumptions C160_left_refuted.

(** With no message waiting for the sink, one poll handles the next message that has arrived. *)
Theorem C160_listens_partial :
  forall (t : Z) (i : identity) (v1 v2 : view) (es : list wev) (q : wconn) (h : list cobs) (m : amsg) (rest : bytes) (clock : nat -> Z * env),
    wire_connection t i v1 v2 es = Some (q, h) -> wf_bytes (arrived es) -> Forall only_data es ->
    k_result (q_conn q) = None -> q_item q = None ->
    reads (arrived es) (map snd (received h) ++ [m]) rest ->
    exists q' h' more, wire_connection t i v1 v2 (es ++ [WNext clock]) = Some (q', h') /\
      map snd (received h') = map snd (received h) ++ m :: more.
Proof. exact listens. Qed.
Print Assumptions C160_listens_partial.

(** The server has to take all but 8191 bytes of the buffer first. *)
Theorem C160_again_partial :
  forall (t : Z) (i : identity) (v1 v2 : view) (es : list wev) (q : wconn) (h : list cobs) (m : amsg) (rest : bytes) (clock : nat -> Z * env)
         (n : nat),
    wire_connection t i v1 v2 es = Some (q, h) -> wf_bytes (arrived es) -> Forall only_data es ->
    k_result (q_conn q) = None -> nlen (q_buf q) < 8192 + N.of_nat n ->
    reads (arrived es) (map snd (received h) ++ [m]) rest ->
    exists q' h' more, wire_connection t i v1 v2 (es ++ [WFlush n; WGive; WNext clock]) = Some (q', h') /\
      map snd (received h') = map snd (received h) ++ m :: more.
Proof. exact listens_again. Qed.
Print Assumptions C160_again_partial.

(** The case of the refutation meets the hypotheses, and with a server that takes its data the same events keep the connection. *)
Example C160_case :
  match wire_connection 0 race_id view9 view9 (stall_before ++ firstn 7 (stall_after 0)) with
  | Some (q, h) => q_item q <> None /\ nlen (q_buf q) = 8267 /\ taken (skipn 7 (stall_after 0)) = 0%nat /\ k_result (q_conn q) = None
  | None => False
  end /\
  match wire_connection 0 race_id view9 view9 (stall_before ++ stall_after (90 * 100) ++ [stall_tick 80]) with
  | Some (q, h) => k_result (q_conn q) = None /\ map snd (received h) = [ack_msg 0 0; connect_msg 0; ack_msg 1 0] /\ q_buf q = []
  | None => False
  end.
Proof. vm_compute. repeat split; discriminate. Qed.
