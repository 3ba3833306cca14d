(** Properties of a connection to an Arrow server: C06, C12 (receiving), C17, C23-C29, C31, C32, C69-C71.

    [connection t0 i v1 v2 es = (k, h)]: a connection of client [i] created at time [t0] went through the
    events [es] (polls with messages from the server, watchdog ticks, socket errors, progress of the
    sessions' transports) and is now in state [k] with history [h]. [k_result k] is [None] while it runs. *)
From Coq Require Import NArith ZArith List Bool.
From Verif.Model Require Import Bytes Frame Service Control Alist Session Manager Client.
From Verif.Spec Require Import ControlSpec SessionSpec ManagerSpec ClientSpec.
From Verif.Proofs Require Import ClientPropsPf ClientPropsPf2 ClientEnd.
Import ListNotations.
Local Open Scope N_scope.

(** Messages of the examples. *)
Definition ex_ping : amsg := control_msg [0; 9; 0; 1].
Definition ex_status : amsg := control_msg [0; 10; 0; 8].
Definition ex_redirect : amsg := control_msg [0; 11; 0; 3; 97; 58; 49; 0].
Definition ex_scan : amsg := control_msg [0; 12; 0; 7].
Definition ex_env : env := env0 view9.
Definition run9 (es : list kev) : conn * list cobs := connection 0 race_id view9 view9 es.
Definition after_up (ms : list amsg) : conn * list cobs := run9 (up_events ++ map (fun m => KPoll [SMsg 2 ex_env m]) ms).

(** C06: no message from the server makes the client panic. *)
Theorem C06_connection_no_panic :
  forall (t0 : Z) (i : identity) (v1 v2 : view) (es : list kev) (k : conn) (h : list cobs),
    connection t0 i v1 v2 es = (k, h) -> k_result k <> Some (Failed EPanic).
Proof. exact no_panic. Qed.
Print Assumptions C06_connection_no_panic.

(** C12, receiving side, is false: a HUP whose reserved byte is set does not end the session, and a
    CONNECT whose reserved byte is set opens a session that no data frame can address (C03). *)
Theorem C12_received_hup_refuted :
  exists (i : identity) (v : view) (e : env) (es : list kev) (sid : N) (m m' : amsg),
    let run := fun last => manager_history (snd (connection 0 i v v (es ++ [KPoll [SMsg 3 e last]]))) in
    server_says m {| cm_id := 51; cm_type := 5; cm_body := BHup sid 0 |} /\
    server_says m' {| cm_id := 51; cm_type := 5; cm_body := BHup (sid + 2 ^ 24) 0 |} /\
    life sid (run m) = Some false /\ life sid (run m') = Some true.
Proof. exact reserved_hup_refuted. Qed.
Print Assumptions C12_received_hup_refuted.

Theorem C12_received_connect_refuted :
  exists (i : identity) (v : view) (es : list kev) (sid : N),
    2 ^ 24 <= sid /\ life sid (manager_history (snd (connection 0 i v v es))) = Some true.
Proof. exact reserved_connect_refuted. Qed.
Print Assumptions C12_received_connect_refuted.

(** C17 and C69: while the connection task sleeps, a waker is stored, nothing waits to be sent, nothing
    is queued in the session manager and no session has anything to report. *)
Theorem C69_no_lost_wakeup :
  forall (t0 : Z) (i : identity) (v1 v2 : view) (es : list kev) (k : conn) (h : list cobs),
    connection t0 i v1 v2 es = (k, h) -> k_result k = None ->
    c_run (k_ctx k) = false -> g_run (c_mgr (k_ctx k)) = false ->
    (forall sid s, find_sess (c_mgr (k_ctx k)) sid = Some s -> s_mgr_run s = false) ->
    c_task (k_ctx k) = true /\ waiting h = Some [] /\ g_queue (c_mgr (k_ctx k)) = [] /\
    (forall sid s, find_sess (c_mgr (k_ctx k)) sid = Some s -> s_mgr_waker s = true /\ ~ has_report s).
Proof. exact asleep_all. Qed.
Print Assumptions C69_no_lost_wakeup.

Example C69_case :
  let '(k, h) := run9 (session_events 0) in
  k_result k = None /\ c_run (k_ctx k) = false /\ g_run (c_mgr (k_ctx k)) = false /\
  map (fun p => s_mgr_run (snd p)) (g_sessions (c_mgr (k_ctx k))) = [false] /\
  c_run (k_ctx (fst (conn_step k (KTick (61 * SEC) view9 view9 view9)))) = true.
Proof. vm_compute. repeat split. Qed.

(** C23 for a whole connection: every network connection that is opened answers a CONNECT received after
    registration, goes to the address of the service the ID stands for, and is local unless the client is
    a gateway. *)
Theorem C23_connection_opens :
  forall (t0 : Z) (i : identity) (v1 v2 : view) (es : list kev) (k : conn) (h h1 h2 : list cobs)
         (sid : N) (ty : svc_type) (mac : N) (a : saddr),
    connection t0 i v1 v2 es = (k, h) -> h = h1 ++ XMgr (OOpen sid ty mac a) :: h2 -> bytes_received h ->
    exists h0 e m id svc s, h1 = h0 ++ [XRecv e m] /\ registered h0 = true /\
      server_says m {| cm_id := id; cm_type := 13; cm_body := BConnect svc sid |} /\
      v_get (e_table e) svc = Some s /\ s_addr s = Some a /\ ty = s_type s /\
      mac = match s_mac s with Some m => m | None => 0 end /\
      (id_gateway i = true \/ loopback (sa_ip a)).
Proof. intros t0 i v1 v2 es k h h1 h2 sid ty mac a. exact (open_origin t0 i v1 v2 es k h h1 sid ty mac a h2). Qed.
Print Assumptions C23_connection_opens.

Example C23_connection_case :
  let h := snd (run9 (session_events 0)) in
  nth_error h 4 = Some (XMgr (OOpen 7 TCP 1 {| sa_ip := V4 9; sa_port := 80 |})) /\ registered (firstn 2 h) = false /\
  registered (firstn 3 h) = true.
Proof. vm_compute. repeat split. Qed.

(** C24 for a whole connection: its sessions are those of a session manager driven by some sequence of
    events, so C13-C24 hold for them. *)
Theorem C24_connection_sessions :
  forall (t0 : Z) (i : identity) (v1 v2 : view) (es : list kev) (k : conn) (h : list cobs),
    connection t0 i v1 v2 es = (k, h) -> k_result k = None ->
    exists mes, mgr_run (mgr_new 65536 (id_gateway i) 0) mes = (c_mgr (k_ctx k), manager_history h).
Proof. exact connection_manager. Qed.
Print Assumptions C24_connection_sessions.

(** C25: REGISTER comes first; until it is acknowledged nothing else is sent, opened or executed, and the
    first message that is anything but the positive acknowledgement ends the connection. *)
Theorem C25_strict_handshake :
  forall (t0 : Z) (i : identity) (v1 v2 : view) (es : list kev) (k : conn) (h : list cobs),
    connection t0 i v1 v2 es = (k, h) ->
    exists rest, h = XQueue t0 (reg_msg i v1) :: rest /\
      (registered h = false ->
         Forall (before_registration (reg_msg i v1)) rest /\ (length (sent h) <= 1)%nat /\
         (length (received h) <= 1)%nat /\
         (received h <> [] -> exists kd, k_result k = Some (Failed kd))).
Proof. exact strict. Qed.
Print Assumptions C25_strict_handshake.

Example C25_case :
  let '(k, h) := run9 [KPoll []; KPoll [SMsg 1 ex_env (connect_msg 0); SMsg 1 ex_env (ack_msg 0 0)]; KPoll []] in
  registered h = false /\ k_result k = Some (Failed OtherError) /\ length h = 3%nat /\
  exists m, mk_register 0 (id_uuid race_id) (id_key race_id) 1 65536 true (table_of_services [(5, tcp1 9)]) [] = ROk m /\
            reg_msg race_id view9 = m.
Proof. vm_compute. repeat split. eexists. split; reflexivity. Qed.

(** C26 *)
Theorem C26_verdicts :
  forall (t0 : Z) (i : identity) (v1 v2 : view) (es : list kev) (k : conn) (h : list cobs)
         (e : env) (m : amsg) (l : list (env * amsg)),
    connection t0 i v1 v2 es = (k, h) -> received h = (e, m) :: l ->
    match read_ack m with
    | Some (id, code) =>
        if id =? REGISTER_ID then
          if code =? 0 then
            if e_diagnostic e then k_result k = Some (Redirected []) /\ l = []
            else k_result k = None -> c_established (k_ctx k) = true
          else k_result k = Some (Failed (verdict code)) /\ l = []
        else k_result k = Some (Failed OtherError) /\ l = []
    | None => k_result k = Some (Failed OtherError) /\ l = []
    end.
Proof. exact verdicts. Qed.
Print Assumptions C26_verdicts.

Example C26_case :
  map (fun c => k_result (fst (run9 [KPoll []; KPoll [SMsg 1 ex_env (ack_msg 0 c)]]))) [0; 1; 2; 4294967295; 3]
  = [None; Some (Failed UnsupportedProtocolVersion); Some (Failed Unauthorized); Some (Failed ArrowServerError);
     Some (Failed OtherError)].
Proof. vm_compute. reflexivity. Qed.

(** C27 *)
Theorem C27_outstanding_exact :
  forall (t0 : Z) (i : identity) (v1 v2 : view) (es : list kev) (k : conn) (h : list cobs),
    connection t0 i v1 v2 es = (k, h) -> k_result k = None -> c_acks (k_ctx k) = outstanding h.
Proof. exact acks_exact. Qed.
Print Assumptions C27_outstanding_exact.

Theorem C27_wrong_ack_ends :
  forall (t0 : Z) (i : identity) (v1 v2 : view) (es : list kev) (k : conn) (h h1 h2 : list cobs)
         (e : env) (m : amsg) (id code : N),
    connection t0 i v1 v2 es = (k, h) -> h = h1 ++ XRecv e m :: h2 -> read_ack m = Some (id, code) ->
    (exists t rest, outstanding h1 = (t, id) :: rest) \/ (h2 = [] /\ k_result k = Some (Failed OtherError)).
Proof. intros t0 i v1 v2 es k h h1 h2 e m id code. exact (ack_order t0 i v1 v2 es k h h1 e m h2 id code). Qed.
Print Assumptions C27_wrong_ack_ends.

Theorem C27_oldest_ack_accepted :
  forall (t0 : Z) (i : identity) (v1 v2 : view) (es : list kev) (k : conn) (h : list cobs)
         (t1 : Z) (id : N) (rest : list (Z * N)) (code : N) (e : env) (t : Z) (m : amsg),
    connection t0 i v1 v2 es = (k, h) -> k_result k = None -> registered h = true ->
    outstanding h = (t1, id) :: rest -> read_ack m = Some (id, code) ->
    let '(k', o) := conn_step k (KPoll [SMsg t e m]) in k_result k' = None /\ outstanding (h ++ o) = rest.
Proof. exact ack_accepted. Qed.
Print Assumptions C27_oldest_ack_accepted.

Example C27_case :
  let es := up_events ++ [KTick (60 * SEC) view9 view9 view9; KTick (70 * SEC) view9 view9 view9] in
  outstanding (snd (run9 es)) = [((60 * SEC)%Z, 1)] /\
  k_result (fst (run9 (es ++ [KPoll [SMsg 1 ex_env (ack_msg 1 0)]]))) = None /\
  k_result (fst (run9 (es ++ [KPoll [SMsg 1 ex_env (ack_msg 2 0)]]))) = Some (Failed OtherError) /\
  k_result (fst (run9 (es ++ [KPoll [SMsg 1 ex_env (ack_msg 1 0)]; KPoll [SMsg 1 ex_env (ack_msg 1 0)]]))) = Some (Failed OtherError).
Proof. vm_compute. repeat split. Qed.

(** C28: the timeout strikes at a tick iff some acknowledgement has been outstanding for 20 s. *)
Theorem C28_timeout_exact :
  forall (t0 : Z) (i : identity) (v1 v2 : view) (es : list kev) (k : conn) (h : list cobs)
         (t : Z) (a b d : view) (k' : conn) (o : list cobs),
    connection t0 i v1 v2 es = (k, h) -> k_result k = None -> conn_step k (KTick t a b d) = (k', o) ->
    ascending t0 (history_times (h ++ [XTick t a b d])) ->
    (k_result k' = Some (Failed ConnectionError) /\
     exists t1 id, In (t1, id) (outstanding h) /\ (20 * SEC <= t - t1)%Z) \/
    (k_result k' = None /\ forall t1 id, In (t1, id) (outstanding h) -> (t - t1 < 20 * SEC)%Z).
Proof. exact timeout_iff. Qed.
Print Assumptions C28_timeout_exact.

Theorem C28_ping_exact :
  forall (t0 : Z) (i : identity) (v1 v2 : view) (es : list kev) (k : conn) (h : list cobs)
         (t : Z) (a b d : view) (k' : conn) (o : list cobs),
    connection t0 i v1 v2 es = (k, h) -> k_result k = None -> conn_step k (KTick t a b d) = (k', o) ->
    (registered h = true /\ (60 * SEC <= t - last_ping t0 h)%Z /\
     exists n, filter is_ping o = [XQueue t (mk_ping n)]) \/
    ((registered h = false \/ (t - last_ping t0 h < 60 * SEC)%Z) /\ filter is_ping o = []).
Proof. exact ping_iff. Qed.
Print Assumptions C28_ping_exact.

(** If the server says nothing from time [tl] on and the watchdog ticks at least every [D], the connection
    has ended at the latest with the first tick 20 s + D after both [tl] and 60 s after the last PING. *)
Theorem C28_silent_server_detected :
  forall (t0 : Z) (i : identity) (v1 v2 : view) (es : list kev) (k : conn) (h : list cobs)
         (tl D : Z) (es' : list kev) (T : Z),
    connection t0 i v1 v2 es = (k, h) -> k_result k = None -> registered h = true ->
    Forall (fun x => (x <= tl)%Z) (history_times h) ->
    Forall no_input es' -> paced D tl (ticks es') -> In T (ticks es') ->
    (Z.max tl (last_ping t0 h + 60 * SEC) + D + 20 * SEC <= T)%Z ->
    k_result (fst (conn_run k es')) <> None.
Proof. exact silent_detected. Qed.
Print Assumptions C28_silent_server_detected.

Example C28_case :
  let tick := fun n => KTick (n * SEC) view9 view9 view9 in
  let k := fst (run9 up_events) in
  k_result (fst (conn_run k [tick 59; tick 60; tick 79]%Z)) = None /\
  k_result (fst (conn_run k [tick 59; tick 60; tick 80]%Z)) = Some (Failed ConnectionError) /\
  k_result (fst (run9 [KPoll []; tick 19%Z])) = None /\ k_result (fst (run9 [KPoll []; tick 20%Z])) = Some (Failed ConnectionError).
Proof. vm_compute. repeat split. Qed.

(** C29 is false when the table changes between the two reads of one UPDATE: the second read marks the
    change as announced, and it is never announced as long as the table stays as it is. *)
Theorem C29_race_refuted :
  exists (i : identity) (v A B : view) (es : list kev) (k : conn) (h : list cobs) (n : N),
    connection 0 i v v es = (k, h) /\ k_result k = None /\ registered h = true /\
    filter is_update h = [XQueue (6 * SEC) (mk_update n (table_of_services (v_visible A)))] /\
    table_of_services (v_visible A) <> table_of_services (v_visible B) /\ v_version A <> v_version B /\
    forall es', Forall (only_sees B) es' -> existsb is_update (snd (conn_run k es')) = false.
Proof. exact race_refuted. Qed.
Print Assumptions C29_race_refuted.

(** It holds when each tick sees one table (and the two reads at the start saw one table). *)
Theorem C29_update_partial :
  forall (t0 : Z) (i : identity) (v : view) (es : list kev) (k : conn) (h : list cobs)
         (t : Z) (a : view) (k' : conn) (o : list cobs),
    connection t0 i v v es = (k, h) -> k_result k = None -> Forall atomic_tick h ->
    conn_step k (KTick t a a a) = (k', o) ->
    (registered h = true /\ (5 * SEC <= t - last_check t0 h)%Z /\ v_version a <> v_version (announced v h) /\
     exists n, filter is_update o = [XQueue t (mk_update n (table_of_services (v_visible a)))]) \/
    ((registered h = false \/ (t - last_check t0 h < 5 * SEC)%Z \/ v_version a = v_version (announced v h)) /\
     filter is_update o = []).
Proof. exact update_iff. Qed.
Print Assumptions C29_update_partial.

Example C29_case :
  let '(k, h) := run9 (up_events ++ [KTick (5 * SEC) viewB viewB viewB; KTick (9 * SEC) viewA viewA viewA]) in
  length (filter is_update h) = 1%nat /\
  length (filter is_update (snd (conn_step k (KTick (10 * SEC) viewA viewA viewA)))) = 1%nat /\
  length (filter is_update (snd (conn_step k (KTick (10 * SEC) viewB viewB viewB)))) = 0%nat.
Proof. vm_compute. repeat split. Qed.

(** C31. The result here is the one at the end of the client's stream; C161 says what becomes of it. *)
Theorem C31_redirect_final_partial :
  forall (t0 : Z) (i : identity) (v1 v2 : view) (es : list kev) (k : conn) (h h1 h2 : list cobs)
         (e : env) (m : amsg) (id : N) (target : bytes),
    connection t0 i v1 v2 es = (k, h) -> h = h1 ++ XRecv e m :: h2 -> registered h1 = true ->
    server_says m {| cm_id := id; cm_type := 3; cm_body := BRedirect target |} ->
    h2 = [] /\ k_result k = Some (Redirected target).
Proof. intros t0 i v1 v2 es k h h1 h2 e m id target. exact (redirect_final t0 i v1 v2 es k h h1 e m h2 id target). Qed.
Print Assumptions C31_redirect_final_partial.

Theorem C31_end_final :
  forall (k : conn) (es : list kev), k_result k <> None -> conn_run k es = (k, []).
Proof. exact after_end. Qed.
Print Assumptions C31_end_final.

(** A redirect is reported only if the server sent it, or (to nowhere) in diagnostic mode. *)
Theorem C31_redirect_origin :
  forall (t0 : Z) (i : identity) (v1 v2 : view) (es : list kev) (k : conn) (h : list cobs) (target : bytes),
    connection t0 i v1 v2 es = (k, h) -> k_result k = Some (Redirected target) -> bytes_received h ->
    exists h1 e m, h = h1 ++ [XRecv e m] /\
      ((registered h1 = true /\ exists id, server_says m {| cm_id := id; cm_type := 3; cm_body := BRedirect target |}) \/
       (received h1 = [] /\ read_ack m = Some (REGISTER_ID, 0) /\ e_diagnostic e = true /\ target = [])).
Proof. exact redirect_origin. Qed.
Print Assumptions C31_redirect_origin.

Example C31_case :
  let '(k, h) := run9 (up_events ++ [KPoll [SMsg 2 ex_env ex_redirect; SMsg 2 ex_env (connect_msg 0)]]) in
  k_result k = Some (Redirected [97; 58; 49]) /\ length (received h) = 2%nat.
Proof. vm_compute. repeat split. Qed.

(** C32: the answers produced match the requests one by one; control messages leave in the order they were
    produced and ahead of session data ([waiting] would be [None] otherwise). *)
Theorem C32_answers :
  forall (t0 : Z) (i : identity) (v1 v2 : view) (es : list kev) (k : conn) (h : list cobs),
    connection t0 i v1 v2 es = (k, h) -> Forall2 answer (asked h) (answers h).
Proof. exact answers_match. Qed.
Print Assumptions C32_answers.

Theorem C32_order :
  forall (t0 : Z) (i : identity) (v1 v2 : view) (es : list kev) (k : conn) (h : list cobs),
    connection t0 i v1 v2 es = (k, h) -> waiting h <> None.
Proof. exact queue_order. Qed.
Print Assumptions C32_order.

Theorem C32_sent :
  forall (t0 : Z) (i : identity) (v1 v2 : view) (es : list kev) (k : conn) (h : list cobs) (q : list amsg),
    connection t0 i v1 v2 es = (k, h) -> k_result k = None -> waiting h = Some q ->
    exists k', conn_run k (repeat (KPoll []) (length q)) = (k', map XSent q) /\ k_result k' = None.
Proof. exact waiting_sent. Qed.
Print Assumptions C32_sent.

Example C32_case :
  let h := snd (after_up [ex_ping; connect_msg 0; ex_status]) in
  length (asked h) = 2%nat /\ map cm_body (answers h) = [BAck 0; BStatus 10 0 1] /\ waiting h = Some [].
Proof. vm_compute. repeat split. Qed.

(** C70: whatever ended the connection (or if it still runs), dropping its session manager closes every
    session: running transports are scheduled and end at their next poll without any I/O. *)
Theorem C70_sessions_end :
  forall (t0 : Z) (i : identity) (v1 v2 : view) (es : list kev) (k : conn) (h : list cobs) (sid : N) (s : sess),
    connection t0 i v1 v2 es = (k, h) -> find_sess (c_mgr (k_ctx k)) sid = Some s ->
    exists s', In (sid, s') (mgr_drop (c_mgr (k_ctx k))) /\ s_phase s' = s_phase s /\
      (s_phase s' = TRunning -> s_tr_run s' = true) /\
      (s_phase s' = TRunning -> forall r w, s_phase (fst (sess_step s' (ETransport r w))) = TDone /\
                                             snd (sess_step s' (ETransport r w)) = []) /\
      (s_phase s' = TConnecting -> forall r w, s_phase (fst (sess_run s' [EConnected; ETransport r w])) = TDone /\
                                          snd (sess_run s' [EConnected; ETransport r w]) = []).
Proof. exact sessions_end. Qed.
Print Assumptions C70_sessions_end.

Example C70_case :
  let k := fst (run9 (session_events 0 ++ [KTransport 7 TConnected; KTransport 7 (TPolled RdPending WrPending); KPoll [SFail]])) in
  k_result k = Some (Failed OtherError) /\
  map (fun p => (fst p, s_phase (snd p), s_tr_run (snd p))) (g_sessions (c_mgr (k_ctx k))) = [(7, TRunning, false)] /\
  map (fun p => (fst p, s_closed (snd p), s_tr_run (snd p))) (mgr_drop (c_mgr (k_ctx k))) = [(7, true, true)].
Proof. vm_compute. repeat split. Qed.

(** C71: a command is executed iff the server asked for it after registration, once per request. *)
Theorem C71_commands_asked :
  forall (t0 : Z) (i : identity) (v1 v2 : view) (es : list kev) (k : conn) (h h1 h2 : list cobs) (cmd : command),
    connection t0 i v1 v2 es = (k, h) -> h = h1 ++ XCmd cmd :: h2 -> bytes_received h ->
    exists h0 e m id, h1 = h0 ++ [XRecv e m] /\ registered h0 = true /\
      server_says m {| cm_id := id; cm_type := command_code cmd; cm_body := BEmpty |}.
Proof. intros t0 i v1 v2 es k h h1 h2 cmd. exact (command_origin t0 i v1 v2 es k h h1 cmd h2). Qed.
Print Assumptions C71_commands_asked.

Theorem C71_commands_given :
  forall (t0 : Z) (i : identity) (v1 v2 : view) (es : list kev) (k : conn) (h h1 h2 : list cobs)
         (e : env) (m : amsg) (id : N) (cmd : command),
    connection t0 i v1 v2 es = (k, h) -> h = h1 ++ XRecv e m :: h2 -> registered h1 = true ->
    server_says m {| cm_id := id; cm_type := command_code cmd; cm_body := BEmpty |} ->
    exists h3, h2 = XCmd cmd :: h3.
Proof. intros t0 i v1 v2 es k h h1 h2 e m id cmd. exact (command_given t0 i v1 v2 es k h h1 e m h2 id cmd). Qed.
Print Assumptions C71_commands_given.

Example C71_case : commands (snd (after_up [ex_scan; ex_ping; ex_scan])) = [ScanNetwork; ScanNetwork].
Proof. vm_compute. reflexivity. Qed.
