(** The data a connection holds: C119. *)
From Coq Require Import NArith ZArith List Bool.
From Verif.Model Require Import Bytes Frame Service Control Alist Session Manager Client Wire.
From Verif.Spec Require Import FrameSpec SessionSpec ManagerSpec ClientSpec WireSpec MemorySpec.
From Verif.Proofs Require Import ClientPropsPf2 MemoryPf.
From Verif.Props Require Import WireProps.
Import ListNotations.
Local Open Scope N_scope.

(** C119: what was read but not handled is less than one frame and one read. *)
Theorem C119_receive_partial :
  forall (t : Z) (i : identity) (v1 v2 : view) (es : list wev) (q : wconn) (h : list cobs) (R M : N),
    wire_connection t i v1 v2 es = Some (q, h) -> reads_at_most R es -> frames_at_most M (arrived es) ->
    nlen (f_buf (q_in q)) < 11 + M + R.
Proof. exact receive_frames. Qed.
Print Assumptions C119_receive_partial.

(** Whatever the server sends. *)
Theorem C119_receive_any :
  forall (t : Z) (i : identity) (v1 v2 : view) (es : list wev) (q : wconn) (h : list cobs) (R : N),
    wire_connection t i v1 v2 es = Some (q, h) -> reads_at_most R es -> wf_bytes (arrived es) ->
    nlen (f_buf (q_in q)) < 2 ^ 32 + 10 + R.
Proof. exact receive_any. Qed.
Print Assumptions C119_receive_any.

(** The full statement, a bound that the server cannot choose, does not hold: before it is registered, with
    reads of one byte, a server can make the client keep any number of bytes up to 4 GiB. *)
Theorem C119_refuted :
  forall (n : N) (clock : nat -> Z * env), n < 2 ^ 32 - 1 ->
    exists es q h, wire_connection 0 race_id view9 view9 (es ++ [WNext clock]) = Some (q, h) /\ reads_at_most 1 es /\
      k_result (q_conn q) = None /\ received h = [] /\ nlen (f_buf (q_in q)) = n + 11.
Proof. exact big_frame. Qed.
Print Assumptions C119_refuted.

(** What was given to the sink but not written. *)
Theorem C119_send :
  forall (t : Z) (i : identity) (v1 v2 : view) (es : list wev) (q : wconn) (h : list cobs) (M : N),
    wire_connection t i v1 v2 es = Some (q, h) -> (forall m, In m (sent h) -> nlen (m_payload m) <= M) ->
    nlen (q_buf q) < 8192 + 11 + M.
Proof. intros t i v1 v2 es q h M H Hm. exact (proj1 (send_buf t i v1 v2 es M q h H Hm)). Qed.
Print Assumptions C119_send.

(** The two buffers of each session. *)
Theorem C119_sessions :
  forall (t : Z) (i : identity) (v1 v2 : view) (es : list kev) (k : conn) (h : list cobs) (C sid : N) (s : sess),
    connection t i v1 v2 es = (k, h) -> k_result k = None -> services_at_most C h -> session k sid = Some s ->
    nlen (s_input s) < 8192 + C /\ nlen (s_output s) <= 65536.
Proof. exact session_buffers. Qed.
Print Assumptions C119_sessions.

Example C119_case :
  match wire_connection 0 race_id view9 view9 (firstn 6 ex_wire) with
  | Some (q, h) => nlen (f_buf (q_in q)) = 5 /\ reads_at_most 5 (firstn 6 ex_wire)
  | None => False
  end /\
  frames_at_most 10 (arrived ex_wire) /\
  match wire_connection 0 race_id view9 view9 ex_wire with
  | Some (q, h) => services_at_most 4 h /\ q_buf q <> [] /\ session (q_conn q) 7 <> None
  | None => False
  end.
Proof.
  split; [|split].
  - vm_compute. split; [reflexivity|]. intros b H. repeat (destruct H as [H|H]; [try discriminate; injection H as <-; cbv; discriminate|]). destruct H.
  - exists [ack_msg 0 0; connect_msg 0; {| m_service := 5; m_session := 7; m_payload := [10; 20; 30] |}], [].
    split; [vm_compute; reflexivity|]. repeat constructor; vm_compute; try reflexivity; discriminate.
  - vm_compute. split; [|split; discriminate]. intros sid b w o H.
    repeat (destruct H as [H|H]; [try discriminate; try (injection H; intros; subst; cbv; discriminate)|]). destruct H.
Qed.
