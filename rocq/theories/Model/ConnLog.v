(** What one connection to the server writes to the log: the records of the protocol and, in between, those of the session
    manager (Model/Journal.v). The functions follow those of Model/Client.v. *)
From Coq Require Import String NArith ZArith List Bool.
From Verif.Model Require Import Bytes Text Frame Service Control Session Manager Client Logger Journal.
Import ListNotations.
Local Open Scope N_scope.

(** A record of the protocol or of the session manager *)
Inductive line := LOwn (r : jrec) | LSes (r : jrec).

(** src/net/arrow/proto/msg/control/mod.rs:84-106: the derived `Debug` of the message types *)
Definition type_name (t : ctype) : bytes :=
  match t with
  | ACK => lit "ACK"%string | PING => lit "PING"%string | REGISTER => lit "REGISTER"%string | REDIRECT => lit "REDIRECT"%string
  | UPDATE => lit "UPDATE"%string | HUP => lit "HUP"%string | RESET_SVC_TABLE => lit "RESET_SVC_TABLE"%string
  | SCAN_NETWORK => lit "SCAN_NETWORK"%string | GET_STATUS => lit "GET_STATUS"%string | STATUS => lit "STATUS"%string
  | GET_SCAN_REPORT => lit "GET_SCAN_REPORT"%string | SCAN_REPORT => lit "SCAN_REPORT"%string
  | DATA_ACK => lit "DATA_ACK"%string | CONNECT => lit "CONNECT"%string | UNKNOWN => lit "UNKNOWN"%string
  end.

(** src/net/arrow/mod.rs:225, 249, 262, 420, 482, 503 *)
Definition register_rec : jrec := say DEBUG [lit "sending REGISTER request..."%string].
Definition update_rec : jrec := say DEBUG [lit "sending an UPDATE message..."%string].
Definition ping_rec : jrec := say DEBUG [lit "sending a PING message..."%string].
Definition ack_rec : jrec := say DEBUG [lit "sending an ACK message..."%string].
Definition status_rec : jrec := say DEBUG [lit "sending a STATUS message..."%string].
Definition report_rec : jrec := say DEBUG [lit "sending a SCAN_REPORT message..."%string].
(** src/net/arrow/mod.rs:296-302 *)
Definition received_rec (t : ctype) : jrec := say DEBUG [lit "received control message: "%string; type_name t].

Section ConnLog.
  (** `Display for SocketAddr` of the Rust standard library *)
  Variable aprint : saddr -> bytes.
  Definition ses (l : list jrec) : list line := map LSes l.

  (** src/net/arrow/mod.rs:173-200: what `time_event` writes *)
  Definition time_log (t : Z) (c : ctx) (v0 : view) : list line :=
    if c_established c then
      let due := Z.leb PING_PERIOD (t - c_last_ping c) in
      let c1 := if due then fst (send_ping t c) else c in
      (if due then [LOwn ping_rec] else []) ++
      (if Z.leb UPDATE_CHECK_PERIOD (t - c_last_check c1) && negb (N.eqb (c_version c1) (v_version v0)) then [LOwn update_rec] else [])
    else [].

  (** src/net/arrow/mod.rs:290-323 and 376-543 *)
  Definition control_log (e : env) (c : ctx) (m : cmsg) : list line :=
    match message_type (cm_type m) with DATA_ACK => [] | t => [LOwn (received_rec t)] end ++
    if c_established c then
      match message_type (cm_type m), cm_body m with
      | PING, _ => [LOwn ack_rec]
      | GET_STATUS, _ => [LOwn status_rec]
      | GET_SCAN_REPORT, _ => [LOwn report_rec]
      | CONNECT, BConnect svc sid => ses (mgr_log aprint (c_mgr c) (MConnect (v_get (e_table e)) svc sid) [])
      | DATA_ACK, BDataAck sid len => ses (mgr_log aprint (c_mgr c) (MDataAck sid len) [])
      | HUP, BHup sid _ => ses (mgr_log aprint (c_mgr c) (MClose sid) [])
      | _, _ => []
      end
    else [].

  (** src/net/arrow/mod.rs:272-287 and 532-543 *)
  Definition message_log (e : env) (c : ctx) (m : amsg) : list line :=
    if is_closed c then []
    else if N.eqb (m_service m) 0 then
      match cmsg_from_bytes (m_payload m) with ROk cm => control_log e c cm | _ => [] end
    else if c_established c then ses (mgr_log aprint (c_mgr c) (MSend m) [])
    else [].
  Definition feed_log (c : ctx) (i : sitem) : list line :=
    match i with SMsg _ e m => message_log e c m | _ => [] end.

  (** src/net/arrow/mod.rs:552-569; [err] is the text of the error of a session that ends in this poll *)
  Definition ctx_poll_log (c : ctx) (err : bytes) : list line :=
    if is_closed c then []
    else match c_messages c with [] => ses (mgr_log aprint (c_mgr c) MPoll err) | _ :: _ => [] end.

  (** src/net/arrow/mod.rs:652-666. Only the last poll of the loop can return the end of a session, so there is one text. *)
  Fixpoint loop_log (c : ctx) (items : list sitem) (err : bytes) : list line :=
    let '(p, c1, _) := ctx_poll c in
    ctx_poll_log c err ++
    match p with
    | PPending =>
        match items with
        | [] => []
        | i :: items' =>
            let '(r, c2, _) := feed_item c1 i in
            feed_log c1 i ++ match r with Some _ => [] | None => loop_log c2 items' err end
        end
    | _ => []
    end.
  (** src/net/arrow/mod.rs:640-667 *)
  Definition client_poll_log (c : ctx) (items : list sitem) (err : bytes) : list line :=
    match items with
    | [] => loop_log c [] err
    | i :: items' =>
        let '(r, c1, _) := feed_item c i in
        feed_log c i ++ match r with Some _ => [] | None => loop_log c1 items' err end
    end.

  (** src/net/arrow/mod.rs:595-609 and 705-717 *)
  Definition conn_log (k : conn) (e : kev) (err : bytes) : list line :=
    match k_result k with
    | Some _ => []
    | None =>
        match e with
        | KPoll items => client_poll_log (k_ctx k) items err
        | KTick t v0 _ _ => if is_closed (k_ctx k) then [] else time_log t (k_ctx k) v0
        | KSinkFailed | KTransport _ _ => []
        end
    end.
  Fixpoint conn_lines (k : conn) (es : list (kev * bytes)) : list line :=
    match es with
    | [] => []
    | (e, err) :: es' => conn_log k e err ++ conn_lines (fst (conn_step k e)) es'
    end.
  (** src/net/arrow/mod.rs:111-152, 224-225: the registration, and then the history with the texts of the errors *)
  Definition connection_log (t : Z) (i : identity) (v1 v2 : view) (es : list (kev * bytes)) : list line :=
    LOwn register_rec :: conn_lines (fst (conn_new t i v1 v2)) es.
End ConnLog.
