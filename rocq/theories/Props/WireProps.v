(** Properties of a connection on the bytes of its TLS stream: C109-C113.

    [wire_connection t i v1 v2 es = Some (q, h)]: a connection went through the events [es] (reads of the
    TLS stream, polls of the client, messages given to the sink, writes to the stream, watchdog ticks,
    progress of the sessions' transports) and is now in state [q] with history [h]. *)
From Coq Require Import NArith ZArith List Bool.
From Verif.Model Require Import Bytes Frame Service Control Alist Session Manager Client Wire.
From Verif.Spec Require Import FrameSpec SessionSpec ManagerSpec ClientSpec WireSpec.
From Verif.Proofs Require Import ClientPropsPf2 WireRun WireFinal WireEnd.
Import ListNotations.
Local Open Scope N_scope.

(** An example: the ACK for REGISTER arrives in two pieces, CONNECT together with data for the new session. *)
Definition ex_clock : nat -> Z * env := fun _ => (1%Z, env0 view9).
Definition ex_bytes : bytes :=
  concat (map amsg_encode [ack_msg 0 0; connect_msg 0; {| m_service := 5; m_session := 7; m_payload := [10; 20; 30] |}]).
Definition ex_wire : list wev :=
  [WNext ex_clock; WGive; WFlush 10; WArrive (SData (firstn 5 ex_bytes)); WNext ex_clock; WFlush 1000;
   WArrive (SData (firstn 30 (skipn 5 ex_bytes))); WArrive (SData (skipn 35 ex_bytes)); WNext ex_clock;
   WTransport 7 TConnected; WTransport 7 (TPolled (RdData [1; 2; 3; 4]) (WrOk 2)); WNext ex_clock; WGive; WNext ex_clock; WGive; WFlush 20].

(** C109 *)
Theorem C109_total :
  forall (t : Z) (i : identity) (v1 v2 : view) (es : list wev), wire_connection t i v1 v2 es <> None.
Proof. exact connection_total. Qed.
Print Assumptions C109_total.

Theorem C109_frames :
  forall (t : Z) (i : identity) (v1 v2 : view) (es : list wev) (q : wconn) (h : list cobs),
    wire_connection t i v1 v2 es = Some (q, h) -> wf_bytes (arrived es) ->
    exists rest, reads (arrived es) (map snd (received h)) rest.
Proof. exact wire_frames. Qed.
Print Assumptions C109_frames.

(** A poll that returns nothing and does not end the connection has handled every complete frame. *)
Theorem C109_drained :
  forall (t : Z) (i : identity) (v1 v2 : view) (es : list wev) (clock : nat -> Z * env) (q : wconn) (h : list cobs),
    wire_connection t i v1 v2 (es ++ [WNext clock]) = Some (q, h) ->
    wf_bytes (arrived es) -> k_result (q_conn q) = None -> q_item q = None ->
    exists rest, reads (arrived es) (map snd (received h)) rest /\ frame_reading rest = DMore.
Proof. exact wire_drained. Qed.
Print Assumptions C109_drained.

(** On the wire nothing happens that the connection of C06-C32 and C69-C71 cannot do. *)
Theorem C109_refines :
  forall (t : Z) (i : identity) (v1 v2 : view) (es : list wev) (q : wconn) (h : list cobs),
    wire_connection t i v1 v2 es = Some (q, h) -> exists kes, connection t i v1 v2 kes = (q_conn q, h).
Proof. exact wire_refines. Qed.
Print Assumptions C109_refines.

Example C109_case :
  match wire_connection 0 race_id view9 view9 ex_wire with
  | Some (q, h) =>
      k_result (q_conn q) = None /\ arrived ex_wire = ex_bytes /\
      map (fun x => m_payload (snd x)) (received h) =
        [[0; 0; 0; 0; 0; 0; 0; 0]; [0; 50; 0; 13; 0; 5; 0; 0; 0; 7]; [10; 20; 30]]
  | None => False
  end.
Proof. vm_compute. repeat split. Qed.

(** C110 *)
Theorem C110_written :
  forall (t : Z) (i : identity) (v1 v2 : view) (es : list wev) (q : wconn) (h : list cobs),
    wire_connection t i v1 v2 es = Some (q, h) -> Forall wf_amsg (sent h) ->
    (exists n tail, q_wire q = concat (map frame_layout (firstn n (sent h))) ++ tail /\ partial_frame tail) /\
    (q_item q = None -> q_buf q = [] -> q_wire q = concat (map frame_layout (sent h))).
Proof. exact wire_written. Qed.
Print Assumptions C110_written.

(** Nothing is held back: if the stream accepts enough, everything that was sent is written. *)
Theorem C110_flushed :
  forall (t : Z) (i : identity) (v1 v2 : view) (es : list wev) (q : wconn) (h : list cobs),
    wire_connection t i v1 v2 es = Some (q, h) -> Forall wf_amsg (sent h) ->
    exists k, forall n, (k <= n)%nat ->
      exists q', wire_connection t i v1 v2 (es ++ [WFlush n; WGive; WFlush n]) = Some (q', h) /\
        q_wire q' = concat (map frame_layout (sent h)).
Proof. exact wire_flushed. Qed.
Print Assumptions C110_flushed.

Example C110_case :
  match wire_connection 0 race_id view9 view9 ex_wire with
  | Some (q, h) =>
      length (sent h) = 3%nat /\ q_item q = None /\ q_buf q <> [] /\
      q_wire q = concat (map amsg_encode (firstn 1 (sent h))) ++ firstn 20 (amsg_encode (nth 1 (sent h) (control_msg [])))
  | None => False
  end.
Proof. vm_compute. repeat split. discriminate. Qed.

(** C111 *)
Theorem C111_delivered :
  forall (t : Z) (i : identity) (v1 v2 : view) (es : list kev) (k : conn) (h : list cobs) (sid : N),
    connection t i v1 v2 es = (k, h) ->
    starts_with_bytes (data_in sid h) (to_service sid h) /\
    (forall s, k_result k = None -> session k sid = Some s -> s_closed s = false ->
       data_in sid h = to_service sid h ++ s_output s).
Proof. exact delivered. Qed.
Print Assumptions C111_delivered.

Example C111_case :
  match wire_connection 0 race_id view9 view9 ex_wire with
  | Some (q, h) =>
      data_in 7 h = [10; 20; 30] /\ to_service 7 h = [10; 20] /\
      option_map s_output (session (q_conn q) 7) = Some [30] /\ option_map s_closed (session (q_conn q) 7) = Some false
  | None => False
  end.
Proof. vm_compute. repeat split. Qed.

(** C112 *)
Theorem C112_collected_partial :
  forall (t : Z) (i : identity) (v1 v2 : view) (es : list kev) (k : conn) (h : list cobs) (sid : N),
    connection t i v1 v2 es = (k, h) -> control_has_no_address h -> short_ids h ->
    starts_with_bytes (from_service sid h) (data_out sid h) /\
    (forall s, k_result k = None -> session k sid = Some s -> from_service sid h = data_out sid h ++ s_input s).
Proof. exact collected. Qed.
Print Assumptions C112_collected_partial.

(** CONNECT carries a session ID of 32 bits, frames carry 24: the data of one session can look like the
    data of another one. *)
Theorem C112_refuted :
  exists (i : identity) (v : view) (es : list kev) (k : conn) (h : list cobs) (sid : N),
    connection 0 i v v es = (k, h) /\ control_has_no_address h /\
    from_service sid h = [] /\ data_out sid h = [1; 2; 3] /\ ~ starts_with_bytes (from_service sid h) (data_out sid h).
Proof. exact clash_refuted. Qed.
Print Assumptions C112_refuted.

Example C112_case :
  match wire_connection 0 race_id view9 view9 ex_wire with
  | Some (q, h) =>
      from_service 7 h = [1; 2; 3; 4] /\ data_out 7 h = [1; 2; 3; 4] /\ option_map s_input (session (q_conn q) 7) = Some [] /\
      v_get view9 0 = None
  | None => False
  end.
Proof. vm_compute. repeat split. Qed.

(** C113: the end of the stream or a read error after [es], with everything before it handled. *)
Theorem C113_loss_noticed :
  forall (t : Z) (i : identity) (v1 v2 : view) (es : list wev) (q : wconn) (h : list cobs) (rest : bytes)
         (r : sread) (clock : nat -> Z * env),
    wire_connection t i v1 v2 es = Some (q, h) -> wf_bytes (arrived es) -> Forall only_data es ->
    k_result (q_conn q) = None -> q_item q = None ->
    reads (arrived es) (map snd (received h)) rest -> frame_reading rest = DMore -> r = SData [] \/ r = SError ->
    exists q', wire_connection t i v1 v2 (es ++ [WArrive r; WNext clock]) = Some (q', h) /\
      k_result (q_conn q') =
        Some (Failed (match r, rest with SData [], [] => ConnectionError | _, _ => OtherError end)).
Proof. exact lost. Qed.
Print Assumptions C113_loss_noticed.

(** C113: every chunking of the server's bytes, followed by the end of the stream: the frames come first, each once
    and in order, then the end, or an error when bytes are left over. *)
Theorem C113_frames_then_end :
  forall (chunks : list bytes) (ms : list amsg) (rest : bytes),
    Forall (fun c : bytes => c <> []) chunks -> wf_bytes (concat chunks) ->
    reads (concat chunks) ms rest -> (forall m r, frame_reading rest <> DMsg m r) ->
    nexts (S (length ms)) framed_new (map SData chunks ++ [SData []]) =
      map FItem ms ++ [match rest with [] => FEnd | _ => FError end].
Proof. exact frames_then_end. Qed.
Print Assumptions C113_frames_then_end.

Example C113_frames_case :
  let two := [[2; 0; 1; 0; 0; 0; 7; 0; 0; 0; 1; 65; 2; 0; 1]; [0; 0; 0; 7; 0; 0; 0; 1; 66]] in
  let m x := {| m_service := 1; m_session := 7; m_payload := [x] |} in
  wf_bytes (concat two) /\ reads (concat two) [m 65; m 66] [] /\
  nexts 3 framed_new (map SData two ++ [SData []]) = [FItem (m 65); FItem (m 66); FEnd].
Proof.
  split; [repeat constructor|]. split; [|vm_compute; reflexivity].
  eapply reads_frame; [vm_compute; reflexivity|]. eapply reads_frame; [vm_compute; reflexivity|]. constructor.
Qed.

Example C113_case :
  match wire_connection 0 race_id view9 view9 (firstn 9 ex_wire) with
  | Some (q, h) => k_result (q_conn q) = None /\ q_item q = None /\ length (received h) = 3%nat
  | None => False
  end /\
  option_map (fun x => k_result (q_conn (fst x)))
    (wire_connection 0 race_id view9 view9 (firstn 9 ex_wire ++ [WArrive (SData []); WNext ex_clock]))
  = Some (Some (Failed ConnectionError)).
Proof. vm_compute. repeat split. Qed.
