(** The Arrow client: protocol state, control message handlers, timers, and one connection from
    registration to its result.

    Time is an integer number of time units since some origin, [SEC] units per second; every locked
    section reads the clock once (the code reads `Instant::now()`/`elapsed()` several times within a
    section). The service table is a separate object that other threads may change at any time: each
    read of it is a [view] given by the environment. *)
From Coq Require Import NArith ZArith List Bool.
From Verif.Model Require Import Bytes Frame Service Control Alist Session Manager.
Import ListNotations.
Local Open Scope N_scope.

(** Nanoseconds per second (resolution of `Instant`). *)
Definition SEC : Z := 1000000000.

(** src/net/arrow/mod.rs:51-56 *)
Definition ACK_TIMEOUT : Z := (20 * SEC)%Z.
Definition PING_PERIOD : Z := (60 * SEC)%Z.
Definition UPDATE_CHECK_PERIOD : Z := (5 * SEC)%Z.
Definition SESSION_WINDOW_SIZE : N := 65536.

(** src/net/arrow/proto/msg/control/status.rs:26 *)
Definition STATUS_FLAG_SCAN : N := 1.

(** src/net/arrow/error.rs:27-39. [EPanic] is a panic, not an error value. *)
Inductive ekind := ConnectionError | UnsupportedProtocolVersion | Unauthorized | ArrowServerError | OtherError | EPanic.

(** src/cmd_handler.rs:44-50: the commands a server can trigger. *)
Inductive command := ResetServiceTable | ScanNetwork.

(** What can be read from the service table at one moment: `visible()`, `visible_set_version()` and
    `get()`. *)
Record view := { v_visible : list element; v_version : N; v_get : N -> option service }.

(** What the handlers read from the application context and the service tables while a message is
    processed: the captured table ([e_table]), the scanning flag, the diagnostic mode, the last scan
    result and the current table's `get_id`. *)
Record env := {
  e_table : view;
  e_scanning : bool;
  e_diagnostic : bool;
  e_hosts : list host;
  e_services : list service;
  e_get_id : ident -> option N
}.

(** src/net/arrow/mod.rs:87-103, `ArrowClientContext`. An expected ACK is (timestamp, message ID).
    [c_task]: a waker is stored in `task`; [c_run]: the connection task is runnable because that waker
    was used (or because it has not been polled to `Pending` yet). The message factory is shared with
    the session manager and kept there. *)
Record ctx := {
  c_mgr : mgr;
  c_messages : list amsg;
  c_acks : list (Z * N);
  c_established : bool;
  c_task : bool;
  c_run : bool;
  c_redirect : option bytes;
  c_closed : bool;
  c_last_ping : Z;
  c_last_check : Z;
  c_version : N
}.

Definition set_mgr (c : ctx) (g : mgr) : ctx :=
  {| c_mgr := g; c_messages := c_messages c; c_acks := c_acks c; c_established := c_established c;
     c_task := c_task c; c_run := c_run c; c_redirect := c_redirect c; c_closed := c_closed c;
     c_last_ping := c_last_ping c; c_last_check := c_last_check c; c_version := c_version c |}.
Definition set_messages (c : ctx) (q : list amsg) : ctx :=
  {| c_mgr := c_mgr c; c_messages := q; c_acks := c_acks c; c_established := c_established c;
     c_task := c_task c; c_run := c_run c; c_redirect := c_redirect c; c_closed := c_closed c;
     c_last_ping := c_last_ping c; c_last_check := c_last_check c; c_version := c_version c |}.
Definition set_acks (c : ctx) (a : list (Z * N)) : ctx :=
  {| c_mgr := c_mgr c; c_messages := c_messages c; c_acks := a; c_established := c_established c;
     c_task := c_task c; c_run := c_run c; c_redirect := c_redirect c; c_closed := c_closed c;
     c_last_ping := c_last_ping c; c_last_check := c_last_check c; c_version := c_version c |}.
Definition set_established (c : ctx) : ctx :=
  {| c_mgr := c_mgr c; c_messages := c_messages c; c_acks := c_acks c; c_established := true;
     c_task := c_task c; c_run := c_run c; c_redirect := c_redirect c; c_closed := c_closed c;
     c_last_ping := c_last_ping c; c_last_check := c_last_check c; c_version := c_version c |}.
Definition set_ctask (c : ctx) (task run : bool) : ctx :=
  {| c_mgr := c_mgr c; c_messages := c_messages c; c_acks := c_acks c; c_established := c_established c;
     c_task := task; c_run := run; c_redirect := c_redirect c; c_closed := c_closed c;
     c_last_ping := c_last_ping c; c_last_check := c_last_check c; c_version := c_version c |}.
Definition set_redirect (c : ctx) (target : bytes) : ctx :=
  {| c_mgr := c_mgr c; c_messages := c_messages c; c_acks := c_acks c; c_established := c_established c;
     c_task := c_task c; c_run := c_run c; c_redirect := Some target; c_closed := c_closed c;
     c_last_ping := c_last_ping c; c_last_check := c_last_check c; c_version := c_version c |}.
Definition set_closed (c : ctx) : ctx :=
  {| c_mgr := c_mgr c; c_messages := c_messages c; c_acks := c_acks c; c_established := c_established c;
     c_task := c_task c; c_run := c_run c; c_redirect := c_redirect c; c_closed := true;
     c_last_ping := c_last_ping c; c_last_check := c_last_check c; c_version := c_version c |}.
Definition set_last_ping (c : ctx) (t : Z) : ctx :=
  {| c_mgr := c_mgr c; c_messages := c_messages c; c_acks := c_acks c; c_established := c_established c;
     c_task := c_task c; c_run := c_run c; c_redirect := c_redirect c; c_closed := c_closed c;
     c_last_ping := t; c_last_check := c_last_check c; c_version := c_version c |}.
Definition set_last_check (c : ctx) (t : Z) : ctx :=
  {| c_mgr := c_mgr c; c_messages := c_messages c; c_acks := c_acks c; c_established := c_established c;
     c_task := c_task c; c_run := c_run c; c_redirect := c_redirect c; c_closed := c_closed c;
     c_last_ping := c_last_ping c; c_last_check := t; c_version := c_version c |}.
Definition set_version (c : ctx) (v : N) : ctx :=
  {| c_mgr := c_mgr c; c_messages := c_messages c; c_acks := c_acks c; c_established := c_established c;
     c_task := c_task c; c_run := c_run c; c_redirect := c_redirect c; c_closed := c_closed c;
     c_last_ping := c_last_ping c; c_last_check := c_last_check c; c_version := v |}.

(** The shared message factory. *)
Definition c_next_id (c : ctx) : N * ctx :=
  let '(id, f) := next_id (g_factory (c_mgr c)) in (id, set_mgr c (set_factory (c_mgr c) f)).

(** Observable effects, in order. *)
Inductive cobs :=
| XRecv (e : env) (m : amsg)       (* a message from the server is handled (not ignored) *)
| XTick (t : Z) (v0 v1 v2 : view)  (* the watchdog runs its periodical tasks *)
| XQueue (t : Z) (m : cmsg)        (* a control message is put into the output queue *)
| XMgr (o : mobs)                  (* an effect of the session manager *)
| XCmd (c : command)               (* a command for the command handler *)
| XSent (m : amsg).                (* a message is handed over to the network sink *)

(** src/net/arrow/mod.rs:203-210, `send_control_message` *)
Definition send_control (t : Z) (c : ctx) (m : cmsg) : ctx * list cobs :=
  let c1 := set_messages c (c_messages c ++ [amsg_of_cmsg m]) in
  ((if c_task c1 then set_ctask c1 false true else c1), [XQueue t m]).

(** src/net/arrow/mod.rs:214-221, `send_unconfirmed_control_message` *)
Definition send_unconfirmed (t : Z) (c : ctx) (m : cmsg) : ctx * list cobs :=
  send_control t (set_acks c (c_acks c ++ [(t, cm_id m)])) m.

(** Identification data of the client. *)
Record identity := { id_uuid : bytes; id_key : bytes; id_mac : N; id_info : bytes; id_gateway : bool }.

(** src/net/arrow/mod.rs:111-152 and 224-245, `ArrowClientContext::new` with `send_register_message`.
    The visible services are read from [v1] and the version afterwards from [v2] (two separate locks).
    The window assertions of the REGISTER constructor hold for the constant window, so the panic branch
    is a context that is closed at once (excluded by a theorem). *)
Definition ctx_new (t : Z) (i : identity) (v1 v2 : view) : ctx * list cobs :=
  let c := {| c_mgr := mgr_new SESSION_WINDOW_SIZE (id_gateway i) factory_new; c_messages := [];
              c_acks := []; c_established := false; c_task := false; c_run := true; c_redirect := None;
              c_closed := false; c_last_ping := t; c_last_check := t; c_version := 0 |} in
  let table := table_of_services (v_visible v1) in
  let '(id, c1) := c_next_id c in
  match mk_register id (id_uuid i) (id_key i) (id_mac i) SESSION_WINDOW_SIZE (id_gateway i) table (id_info i) with
  | ROk m => send_unconfirmed t (set_version c1 (v_version v2)) m
  | _ => (set_closed c1, [])
  end.

(** src/net/arrow/mod.rs:160-162 *)
Definition is_closed (c : ctx) : bool :=
  c_closed c || match c_redirect c with Some _ => true | None => false end.

(** src/net/arrow/mod.rs:79-82 and 165-170, `ack_timeout` *)
Definition ack_timeout (t : Z) (c : ctx) : bool :=
  match c_acks c with
  | [] => false
  | (t0, _) :: _ => Z.leb ACK_TIMEOUT (t - t0)
  end.

(** src/net/arrow/mod.rs:261-269, `send_ping_message` *)
Definition send_ping (t : Z) (c : ctx) : ctx * list cobs :=
  let '(id, c1) := c_next_id c in
  let '(c2, o) := send_unconfirmed t c1 (mk_ping id) in
  (set_last_ping c2 t, o).

(** src/net/arrow/mod.rs:248-258, `send_update_message`: two separate reads of the table *)
Definition send_update (t : Z) (c : ctx) (v1 v2 : view) : ctx * list cobs :=
  let table := table_of_services (v_visible v1) in
  let '(id, c1) := c_next_id c in
  send_control t (set_version c1 (v_version v2)) (mk_update id table).

(** src/net/arrow/mod.rs:194-200, `check_for_updates`: the version check reads [v0]. *)
Definition check_for_updates (t : Z) (c : ctx) (v0 v1 v2 : view) : ctx * list cobs :=
  let '(c1, o) := if N.eqb (c_version c) (v_version v0) then (c, []) else send_update t c v1 v2 in
  (set_last_check c1 t, o).

(** src/net/arrow/mod.rs:173-191, `time_event` *)
Definition time_event (t : Z) (c : ctx) (v0 v1 v2 : view) : option ekind * ctx * list cobs :=
  let '(c2, o) :=
    if c_established c then
      let '(c1, o1) := if Z.leb PING_PERIOD (t - c_last_ping c) then send_ping t c else (c, []) in
      let '(c2, o2) := if Z.leb UPDATE_CHECK_PERIOD (t - c_last_check c1) then check_for_updates t c1 v0 v1 v2
                       else (c1, []) in
      (c2, o1 ++ o2)
    else (c, []) in
  (if ack_timeout t c2 then Some ConnectionError else None, c2, o).

(** Lift a session manager step. *)
Definition lift_mgr (c : ctx) (r : mgr * list mobs) : ctx * list cobs :=
  let '(g, o) := r in (set_mgr c g, map XMgr o).

(** src/net/arrow/mod.rs:345-373, `process_handshake_ack` *)
Definition handshake_ack (e : env) (c : ctx) (err : N) : option ekind * ctx :=
  if N.eqb err EC_NO_ERROR then
    let c1 := set_established c in
    (None, if e_diagnostic e then set_redirect c1 [] else c1)
  else if N.eqb err EC_UNAUTHORIZED then (Some Unauthorized, c)
  else if N.eqb err EC_UNSUPPORTED_PROTOCOL_VERSION then (Some UnsupportedProtocolVersion, c)
  else if N.eqb err EC_INTERNAL_SERVER_ERROR then (Some ArrowServerError, c)
  else (Some OtherError, c).

(** src/net/arrow/mod.rs:326-342, `process_ack_message` *)
Definition process_ack (e : env) (c : ctx) (id err : N) : option ekind * ctx :=
  match c_acks c with
  | [] => (Some OtherError, c)
  | (_, expected) :: rest =>
      let c1 := set_acks c rest in
      if N.eqb id expected then
        if c_established c then (None, c1) else handshake_ack e c1 err
      else (Some OtherError, c1)
  end.

(** src/net/arrow/mod.rs:290-323 and 376-543: the handlers. The body of a decoded message always fits
    its type (`msg.body::<T>().expect(..)`), the other combinations are panics. *)
Definition process_control (t : Z) (e : env) (c : ctx) (m : cmsg) : option ekind * ctx * list cobs :=
  let established (r : ctx * list cobs) : option ekind * ctx * list cobs :=
    if c_established c then (None, fst r, snd r) else (Some OtherError, c, []) in
  match message_type (cm_type m), cm_body m with
  | ACK, BAck err => let '(r, c1) := process_ack e c (cm_id m) err in (r, c1, [])
  | CONNECT, BConnect svc sid => established (lift_mgr c (mgr_connect (c_mgr c) (v_get (e_table e)) svc sid))
  | DATA_ACK, BDataAck sid len => established (lift_mgr c (mgr_data_ack (c_mgr c) sid len))
  | PING, _ => established (send_control t c (mk_ack (cm_id m) 0))
  | HUP, BHup sid _ => established (lift_mgr c (mgr_close (c_mgr c) sid))
  | REDIRECT, BRedirect target =>
      established
        (let c1 := set_redirect c target in ((if c_task c1 then set_ctask c1 false true else c1), []))
  | GET_STATUS, _ =>
      established
        (let flags := if e_scanning e then N.lor 0 STATUS_FLAG_SCAN else 0 in
         let '(id, c1) := c_next_id c in
         send_control t c1 (mk_status id (cm_id m) flags (u32 (nlen (g_sessions (c_mgr c))))))
  | GET_SCAN_REPORT, _ =>
      established
        (let '(id, c1) := c_next_id c in
         send_control t c1 (mk_scan_report id (cm_id m) (e_hosts e) (scan_report_services (e_get_id e) (e_services e))))
  | RESET_SVC_TABLE, _ => established (c, [XCmd ResetServiceTable])
  | SCAN_NETWORK, _ => established (c, [XCmd ScanNetwork])
  | UNKNOWN, _ | REGISTER, _ | UPDATE, _ | STATUS, _ | SCAN_REPORT, _ => (Some OtherError, c, [])
  | _, _ => (Some EPanic, c, [])
  end.

(** src/net/arrow/mod.rs:272-287 and 532-543, `process_arrow_message` *)
Definition process_message (t : Z) (e : env) (c : ctx) (m : amsg) : option ekind * ctx * list cobs :=
  if is_closed c then (None, c, [])
  else
    let '(r, c1, o) :=
      if N.eqb (m_service m) 0 then
        match cmsg_from_bytes (m_payload m) with
        | ROk cm => process_control t e c cm
        | RErr => (Some OtherError, c, [])
        | RPanic => (Some EPanic, c, [])
        end
      else if c_established c then
        let '(c1, o) := lift_mgr c (mgr_send (c_mgr c) m) in (None, c1, o)
      else (Some OtherError, c, []) in
    (r, c1, XRecv e m :: o).

(** Result of a poll. *)
Inductive polled := PReady (m : amsg) | PError (k : ekind) | PEnd | PPending.

(** Message returned by a poll of the session manager, if any (a poll returns at most one). *)
Fixpoint polled_msg (o : list mobs) : option amsg :=
  match o with
  | [] => None
  | OMsg _ m :: _ => Some m
  | _ :: o' => polled_msg o'
  end.

(** src/net/arrow/mod.rs:552-569, `ArrowClientContext::poll_next`. The session manager never returns an
    error or the end of its stream. *)
Definition ctx_poll (c : ctx) : polled * ctx * list cobs :=
  if is_closed c then (PEnd, c, [])
  else
    match c_messages c with
    | m :: q => (PReady m, set_ctask (set_messages c q) (c_task c) true, [])
    | [] =>
        let '(g, o) := mgr_poll (c_mgr c) in
        let c1 := set_mgr c g in
        match polled_msg o with
        | Some m => (PReady m, set_ctask c1 (c_task c1) true, map XMgr o)
        | None => (PPending, set_ctask c1 true false, map XMgr o)
        end
    end.

(** What the network stream delivers to one poll; the list ends when the stream has nothing more
    (`Pending`). *)
Inductive sitem :=
| SMsg (t : Z) (e : env) (m : amsg)
| SFail                             (* decoding or I/O error: kind Other *)
| SEnd.                             (* end of stream *)

(** Feed one item to the context: src/net/arrow/mod.rs:645-650 (and 659-664). *)
Definition feed_item (c : ctx) (i : sitem) : option ekind * ctx * list cobs :=
  match i with
  | SMsg t e m => process_message t e c m
  | SFail => (Some OtherError, c, [])
  | SEnd => (None, set_closed c, [])
  end.

(** The loop of src/net/arrow/mod.rs:652-666. *)
Fixpoint client_loop (c : ctx) (items : list sitem) : polled * ctx * list cobs :=
  let '(p, c1, o1) := ctx_poll c in
  match p with
  | PPending =>
      match items with
      | [] => (PPending, c1, o1)
      | i :: items' =>
          let '(r, c2, o2) := feed_item c1 i in
          match r with
          | Some k => (PError k, c2, o1 ++ o2)
          | None => let '(p', c3, o3) := client_loop c2 items' in (p', c3, o1 ++ o2 ++ o3)
          end
      end
  | _ => (p, c1, o1)
  end.

(** src/net/arrow/mod.rs:640-667, `ArrowClient::poll_next`. *)
Definition client_poll (c : ctx) (items : list sitem) : polled * ctx * list cobs :=
  match items with
  | [] => client_loop c []
  | i :: items' =>
      let '(r, c1, o1) := feed_item c i in
      match r with
      | Some k => (PError k, c1, o1)
      | None => let '(p, c2, o2) := client_loop c1 items' in (p, c2, o1 ++ o2)
      end
  end.

(** Result of `connect`: a redirect target or an error. *)
Inductive cresult := Redirected (target : bytes) | Failed (k : ekind).

(** One connection: src/net/arrow/mod.rs:671-722 after the TLS connection is up. [k_result] is set when
    the stream of the client ends or the connection fails; what happens until the future returns is in Finish.v. *)
Record conn := { k_ctx : ctx; k_result : option cresult }.

(** src/net/arrow/mod.rs:719-721 *)
Definition final_result (c : ctx) : cresult :=
  match c_redirect c with Some t => Redirected t | None => Failed ConnectionError end.

(** Events of a connection. [KPoll items]: `send_all` polls the client. [KTick]: the watchdog wakes up.
    [KSinkFailed]: sending to the network fails (an I/O error has kind Other). [KTransport]: a session's
    transport task or socket makes progress. *)
Inductive kev :=
| KPoll (items : list sitem)
| KTick (t : Z) (v0 v1 v2 : view)
| KSinkFailed
| KTransport (sid : N) (e : tev).

(** src/net/arrow/mod.rs:595-609 (watchdog) and 705-717 (`select`). *)
Definition conn_step (k : conn) (e : kev) : conn * list cobs :=
  match k_result k with
  | Some _ => (k, [])
  | None =>
      let c := k_ctx k in
      match e with
      | KPoll items =>
          let '(p, c1, o) := client_poll c items in
          match p with
          | PReady m => ({| k_ctx := c1; k_result := None |}, o ++ [XSent m])
          | PError kind => ({| k_ctx := c1; k_result := Some (Failed kind) |}, o)
          | PEnd => ({| k_ctx := c1; k_result := Some (final_result c1) |}, o)
          | PPending => ({| k_ctx := c1; k_result := None |}, o)
          end
      | KTick t v0 v1 v2 =>
          if is_closed c then ({| k_ctx := c; k_result := Some (final_result c) |}, [])
          else
            let '(r, c1, o) := time_event t c v0 v1 v2 in
            ({| k_ctx := c1; k_result := match r with Some kind => Some (Failed kind) | None => None end |},
             XTick t v0 v1 v2 :: o)
      | KSinkFailed => ({| k_ctx := c; k_result := Some (Failed OtherError) |}, [])
      | KTransport sid te =>
          let '(c1, o) := lift_mgr c (mgr_step (c_mgr c) (MTransport sid te)) in
          ({| k_ctx := c1; k_result := None |}, o)
      end
  end.

Fixpoint conn_run (k : conn) (es : list kev) : conn * list cobs :=
  match es with
  | [] => (k, [])
  | e :: es' =>
      let '(k1, o1) := conn_step k e in
      let '(k2, o2) := conn_run k1 es' in
      (k2, o1 ++ o2)
  end.

(** A new connection and its whole history. *)
Definition conn_new (t : Z) (i : identity) (v1 v2 : view) : conn * list cobs :=
  let '(c, o) := ctx_new t i v1 v2 in ({| k_ctx := c; k_result := None |}, o).
Definition connection (t : Z) (i : identity) (v1 v2 : view) (es : list kev) : conn * list cobs :=
  let '(k, o) := conn_new t i v1 v2 in let '(k', o') := conn_run k es in (k', o ++ o').

(** src/net/arrow/session.rs:659-671, `Drop for SessionManager`: when the connection is over and the
    watchdog has let go of the context, every session is closed. *)
Definition mgr_drop (g : mgr) : list (N * sess) :=
  map (fun p => (fst p, sess_close (snd p))) (g_sessions g).
