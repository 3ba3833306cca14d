(** C139: data that waits in a session moves on.

    A session has done [es1] and goes on with [es2]. [chances es2] counts the turns of the transport task in which the
    service is ready to take something, [takes es2] the polls by the connection task and [writes o2] the writes to the
    service. *)
From Coq Require Import NArith ZArith List Bool.
From Verif.Model Require Import Bytes Frame Service Control Alist Session Manager Client.
From Verif.Spec Require Import ClientSpec WireSpec SessionSpec ProgressSpec.
From Verif.Proofs Require Import ClientPropsPf ClientPropsPf2 ProgressPf ProgressLift.
Import ListNotations.
Local Open Scope N_scope.

(** To the service: everything accepted so far is written once the service was ready to take something as often as bytes
    were waiting, if the session stays open. *)
Theorem C139_delivered_partial :
  forall (svc sid W : N) (es1 es2 : list sev) (s1 s2 : sess) (o1 o2 : list sobs),
    sess_run (sess_new svc sid W) es1 = (s1, o1) -> s_phase s1 = TRunning -> sess_run s1 es2 = (s2, o2) ->
    s_closed s2 = false -> nlen (s_output s1) <= chances es2 ->
    exists rest, written (o1 ++ o2) = accepted o1 ++ rest.
Proof. intros svc sid W es1 es2 s1 s2 o1 o2. exact (delivered svc sid W es1 s1 o1 es2 s2 o2). Qed.
Print Assumptions C139_delivered_partial.

(** To the server, C139 is false: acknowledgements go first. A byte that the service sent waits as long as the server goes
    on sending data, however often the session is polled and although the window of the server is open. *)
Theorem C139_starved_refuted :
  forall k : nat, exists s1 o1 s2 o2,
    sess_run (sess_new 5 1 65536) starve_start = (s1, o1) /\ sess_run s1 (rounds k) = (s2, o2) /\
    read_in o1 = [9] /\ takes (rounds k) = N.of_nat k /\ s_incap s2 = 65536 /\ s_closed s2 = false /\ sent (o1 ++ o2) = [].
Proof. exact starved. Qed.
Print Assumptions C139_starved_refuted.

(** So it is for a whole connection: the byte 9 waits in session 7 while the client is polled [k] times and sends an
    acknowledgement each time, and never a message of the service. *)
Theorem C139_connection_refuted :
  forall k : nat, exists c h s,
    connection 0%Z race_id view9 view9 (start7 ++ rounds7 k) = (c, h) /\ k_result c = None /\
    find_sess (c_mgr (k_ctx c)) 7 = Some s /\ s_input s = [9] /\ s_incap s = 65536 /\
    length (ClientSpec.sent h) = (k + 2)%nat /\ Forall (fun m => m_service m = 0) (ClientSpec.sent h).
Proof. exact starved_connection. Qed.
Print Assumptions C139_connection_refuted.

(** What holds: polls that outnumber the writes to the service send everything that had been read, as far as the window of
    the server allowed. *)
Theorem C139_forwarded_partial :
  forall (svc sid W : N) (es1 es2 : list sev) (s1 s2 : sess) (o1 o2 : list sobs),
    sess_run (sess_new svc sid W) es1 = (s1, o1) -> sess_run s1 es2 = (s2, o2) -> W + acked_in (es1 ++ es2) < 2 ^ 64 ->
    1 + writes o2 < takes es2 ->
    N.min (nlen (read_in o1)) (W + acked_in es1) <= nlen (sent (o1 ++ o2)).
Proof. intros svc sid W es1 es2 s1 s2 o1 o2. exact (forwarded svc sid W es1 s1 o1 es2 s2 o2). Qed.
Print Assumptions C139_forwarded_partial.

(** Four bytes for the service and three bytes from it. *)
Definition before : list sev := [EConnected; EPush [1; 2; 3]; ETransport (RdData [7; 8; 9]) WrPending; EPush [4]].
Definition after : list sev :=
  [ETransport RdPending (WrOk 1); ETake factory_new; ETransport RdPending (WrOk 1); EPush [5]; ETake factory_new;
   ETransport RdPending (WrOk 5); ETransport RdPending (WrOk 1); ETake factory_new; ETake factory_new; ETake factory_new].
Example C139_case :
  let '(s1, o1) := sess_run (sess_new 5 1 65536) before in
  let '(s2, o2) := sess_run s1 after in
  s_phase s1 = TRunning /\ s_closed s2 = false /\ nlen (s_output s1) = 4 /\ chances after = 4 /\
  accepted o1 = [1; 2; 3; 4] /\ written (o1 ++ o2) = [1; 2; 3; 4; 5] /\
  writes o2 = 3 /\ takes after = 5 /\ sent o1 = [] /\ sent (o1 ++ o2) = [7; 8; 9].
Proof. vm_compute. repeat split. Qed.

(** To the service, for a session of a connection: [h1] is the history so far and [h2] what follows. *)
Theorem C139_connection_partial :
  forall (t : Z) (i : identity) (v1 v2 : view) (es1 es2 : list kev) (k1 k2 : conn) (h1 h2 : list cobs) (sid : N) (s1 s2 : sess),
    connection t i v1 v2 es1 = (k1, h1) -> conn_run k1 es2 = (k2, h2) -> k_result k2 = None ->
    session k1 sid = Some s1 -> s_phase s1 = TRunning -> session k2 sid = Some s2 -> s_closed s2 = false ->
    not_opened sid h2 -> nlen (s_output s1) <= ready sid es2 ->
    exists rest, to_service sid (h1 ++ h2) = data_in sid h1 ++ rest.
Proof. intros t i v1 v2 es1 es2 k1 k2 h1 h2 sid s1 s2. exact (delivered_connection t i v1 v2 es1 es2 k1 h1 k2 h2 sid s1 s2). Qed.
Print Assumptions C139_connection_partial.

Definition first_part : list kev :=
  session_events 0 ++ [KTransport 7 TConnected;
    KPoll [SMsg 3%Z (env0 view9) {| m_service := 5; m_session := 7; m_payload := [1; 2; 3] |}]].
Definition second_part : list kev :=
  [KTransport 7 (TPolled RdPending (WrOk 2)); KPoll [SMsg 3%Z (env0 view9) data7]; KTransport 7 (TPolled (RdData [9]) (WrOk 1));
   KTransport 7 (TPolled RdPending (WrOk 1))].
Example C139_connection_case :
  let '(k1, h1) := connection 0%Z race_id view9 view9 first_part in
  let '(k2, h2) := conn_run k1 second_part in
  k_result k2 = None /\
  match session k1 7, session k2 7 with
  | Some s1, Some s2 => s_phase s1 = TRunning /\ s_closed s2 = false /\ s_output s1 = [1; 2; 3]
  | _, _ => False
  end /\
  existsb (fun x => match x with XMgr (OOpen _ _ _ _) => true | _ => false end) h2 = false /\ ready 7 second_part = 3 /\
  data_in 7 h1 = [1; 2; 3] /\ to_service 7 (h1 ++ h2) = [1; 2; 3; 1].
Proof. vm_compute. repeat split. Qed.

(** A turn of the transport task of an open session reads all that the service offers, if there is room in the buffer, and
    writes all that the service takes. *)
Theorem C139_turn_partial :
  forall (s : sess) (r : rd) (w : wr), s_phase s = TRunning -> s_closed s = false ->
    read_in (snd (sess_step s (ETransport r w))) = match r with RdData b => if nlen (s_input s) <? 8192 then b else [] | _ => [] end /\
    written (snd (sess_step s (ETransport r w))) = match w with WrOk n => firstn (N.to_nat n) (s_output s) | _ => [] end.
Proof. exact full_turn. Qed.
Print Assumptions C139_turn_partial.

Example C139_turn_case :
  let '(s, _) := sess_run (sess_new 5 1 65536) before in
  s_phase s = TRunning /\ s_closed s = false /\ s_output s = [1; 2; 3; 4] /\
  read_in (snd (sess_step s (ETransport (RdData [5; 6]) (WrOk 3)))) = [5; 6] /\
  written (snd (sess_step s (ETransport (RdData [5; 6]) (WrOk 3)))) = [1; 2; 3].
Proof. vm_compute. repeat split. Qed.
