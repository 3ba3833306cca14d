(** Properties C21-C24 and the connection-task part of C17: the session manager. [mgr_new W gw f] is a
    fresh manager; [es] is any sequence of messages from the server, polls, and transport steps. *)
From Coq Require Import NArith List Bool.
From Verif.Model Require Import Bytes Frame Service Control Alist Session Manager.
From Verif.Spec Require Import SessionSpec ManagerSpec.
From Verif.Proofs Require Import ManagerProofs ManagerPropsPf ManagerPropsPf2.
Import ListNotations.
Local Open Scope N_scope.

(** C17 at the level of the connection task: while it sleeps, nothing is queued and no session has
    anything to report. *)
Theorem C17_connection_task :
  forall (W : N) (gw : bool) (f : factory) (es : list mev) (g : mgr) (h : list mobs),
    mgr_run (mgr_new W gw f) es = (g, h) ->
    g_run g = false -> (forall sid s, find_sess g sid = Some s -> s_mgr_run s = false) ->
    g_task g = true /\ g_queue g = [] /\
    (forall sid s, find_sess g sid = Some s -> s_mgr_waker s = true /\ ~ has_report s).
Proof. exact no_lost_wakeup_task. Qed.
Print Assumptions C17_connection_task.

Definition get1 : N -> option service :=
  fun n => if N.eqb n 5 then Some (svc_tcp 1 {| sa_ip := V4 9; sa_port := 80 |}) else None.

Example C17_task_case :
  let '(g, _) := mgr_run (mgr_new 65536 true 0) [MConnect get1 5 7; MPoll] in
  g_run g = false /\ option_map s_mgr_run (find_sess g 7) = Some false /\
  g_run (fst (mgr_step g (MConnect get1 6 8))) = true.
Proof. vm_compute. repeat split. Qed.

(** C21: in every history every session ID goes through lives that start with one opening, contain all
    messages of the session, and end with exactly one end (final message or removal by the server). *)
Theorem C21_lives :
  forall (W : N) (gw : bool) (f : factory) (es : list mev) (g : mgr) (h : list mobs) (sid : N),
    mgr_run (mgr_new W gw f) es = (g, h) ->
    life sid h = Some (match find_sess g sid with Some _ => true | None => false end).
Proof. exact lives_ok. Qed.
Print Assumptions C21_lives.

(** The final message is a HUP for the session: code 0 after an end of file, code 3 after a failure. *)
Theorem C21_end_code :
  forall (W : N) (gw : bool) (f : factory) (es : list mev) (g : mgr) (h : list mobs)
         (e : mev) (g' : mgr) (o : list mobs) (sid c : N) (m : amsg),
    mgr_run (mgr_new W gw f) es = (g, h) -> mgr_step g e = (g', o) -> In (OMsg (EndOf sid c) m) o ->
    exists svc id, m = amsg_of_cmsg (mk_hup id sid c) /\ find_sess g' sid = None /\
      (c = EC_NO_ERROR /\ (exists x, In x (map fst (since_open sid h)) /\ is_eof x) \/
       c = EC_CONNECTION_ERROR /\
       exists es1 x es2, map fst (since_open sid h) = es1 ++ x :: es2 /\
                         failure (fst (sess_run (sess_new svc sid W) es1)) x).
Proof. exact ends_correct. Qed.
Print Assumptions C21_end_code.

(** A session that ended on the client's side is reported after a bounded number of polls. *)
Theorem C21_end_reported :
  forall (W : N) (gw : bool) (f : factory) (es : list mev) (g : mgr) (h : list mobs) (sid : N) (s : sess),
    mgr_run (mgr_new W gw f) es = (g, h) -> find_sess g sid = Some s -> s_closed s = true ->
    exists c m, In (OMsg (EndOf sid c) m)
                   (snd (mgr_run g (repeat MPoll (length (g_queue g) + 3 * length (g_order g))))).
Proof. exact closed_reported. Qed.
Print Assumptions C21_end_reported.

(** On the wire a HUP is not always the end: a CONNECT for an ID in use is answered with a HUP for that
    ID while the session goes on. *)
Theorem C21_wire_refuted :
  exists (es : list mev) (g : mgr) (h : list mobs) (id : N) (m : amsg),
    mgr_run (mgr_new 65536 true 0) es = (g, h) /\
    filter (fun x => match x with OMsg _ _ => true | _ => false end) h =
      [OMsg FromQueue (amsg_of_cmsg (mk_hup id 7 EC_CONNECTION_ERROR)); OMsg (FromSession 7) m] /\
    m_payload m = [1; 2].
Proof. exact wire_refuted. Qed.
Print Assumptions C21_wire_refuted.

Example C21_case :
  let '(g, h) := mgr_run (mgr_new 65536 true 0)
    [MConnect get1 5 7; MTransport 7 TConnected; MTransport 7 (TPolled (RdData [1; 2]) WrPending);
     MTransport 7 (TPolled (RdData []) WrPending); MPoll; MPoll; MPoll] in
  life 7 h = Some false /\
  map (fun x => match x with OMsg w m => Some (w, m_payload m) | _ => None end)
      (filter (fun x => match x with OMsg _ _ => true | _ => false end) h)
  = [Some (FromSession 7, [1; 2]); Some (EndOf 7 0, [0; 0; 0; 5; 0; 0; 0; 7; 0; 0; 0; 0])].
Proof. vm_compute. repeat split. Qed.

(** C22 *)
Theorem C22_live_scheduled :
  forall (W : N) (gw : bool) (f : factory) (es : list mev) (g : mgr) (h : list mobs) (sid : N) (s : sess),
    mgr_run (mgr_new W gw f) es = (g, h) -> find_sess g sid = Some s -> In sid (g_order g).
Proof. exact live_in_order. Qed.
Print Assumptions C22_live_scheduled.

(** While a session with something to report gets no message out, the number of polls is bounded by its
    place in the polling order plus the number of queued control messages. *)
Theorem C22_bounded_wait :
  forall (W : N) (gw : bool) (f : factory) (es0 : list mev) (g : mgr) (h : list mobs) (sid : N) (s : sess)
         (es : list mev) (g' : mgr) (h' : list mobs),
    mgr_run (mgr_new W gw f) es0 = (g, h) ->
    find_sess g sid = Some s -> has_report s ->
    mgr_run g es = (g', h') -> ~ In (MClose sid) es -> s_incap s + acks_for sid es < 2 ^ 64 ->
    existsb (message_of sid) h' = false ->
    (polls es <= length (g_queue g) + position sid (g_order g) + queued h')%nat.
Proof. exact bounded_wait. Qed.
Print Assumptions C22_bounded_wait.

Theorem C22_once_partial :
  forall (W : N) (gw : bool) (f : factory) (es : list mev) (g : mgr) (h : list mobs),
    mgr_run (mgr_new W gw f) es = (g, h) -> no_stale_reuse (mgr_new W gw f) es -> NoDup (g_order g).
Proof. exact once. Qed.
Print Assumptions C22_once_partial.

(** Without that condition a session can be scheduled several times. *)
Theorem C22_once_refuted :
  exists (es : list mev) (g : mgr) (h : list mobs),
    mgr_run (mgr_new 65536 true 0) es = (g, h) /\ g_order g = [7; 7] /\ ~ NoDup (g_order g).
Proof. exact once_refuted. Qed.
Print Assumptions C22_once_refuted.

(** A poll that finds nothing leaves only live sessions in the polling order. *)
Theorem C22_stale_purged :
  forall (g g' : mgr) (o : list mobs),
    mgr_poll g = (g', o) -> returned o = 0%nat -> forall k, In k (g_order g') -> find_sess g' k <> None.
Proof. exact stale_purged. Qed.
Print Assumptions C22_stale_purged.

Example C22_case :
  let '(g, _) := mgr_run (mgr_new 65536 true 0)
    [MConnect get1 5 7; MConnect get1 5 8; MTransport 7 TConnected; MTransport 7 (TPolled (RdData [1]) WrPending);
     MTransport 8 TConnected; MTransport 8 (TPolled (RdData [2]) WrPending)] in
  g_order g = [7; 8] /\ position 8 (g_order g) = 1%nat /\
  existsb (message_of 8) (snd (mgr_run g [MPoll])) = false /\
  existsb (message_of 8) (snd (mgr_run g [MPoll; MPoll])) = true.
Proof. vm_compute. repeat split. Qed.

(** C23 *)
Theorem C23_open_only_on_connect :
  forall (g : mgr) (e : mev) (g' : mgr) (o : list mobs) (sid : N) (t : svc_type) (mac : N) (a : saddr),
    mgr_step g e = (g', o) -> In (OOpen sid t mac a) o -> exists get svc, e = MConnect get svc sid.
Proof. exact open_only_connect. Qed.
Print Assumptions C23_open_only_on_connect.

Theorem C23_permitted_only :
  forall (g : mgr) (get : N -> option service) (svc sid : N) (g' : mgr) (o : list mobs),
    mgr_step g (MConnect get svc sid) = (g', o) ->
    (exists s a,
       (find_sess g sid = None /\ get svc = Some s /\ s_addr s = Some a /\
        (g_gateway g = true \/ loopback (sa_ip a))) /\
       o = [OOpen sid (s_type s) (match s_mac s with Some m => m | None => 0 end) a]) \/
    ((forall s a, ~ (find_sess g sid = None /\ get svc = Some s /\ s_addr s = Some a /\
                     (g_gateway g = true \/ loopback (sa_ip a)))) /\
     exists id, o = [OQueued (amsg_of_cmsg (mk_hup id sid EC_CONNECTION_ERROR))] /\
                g_queue g' = g_queue g ++ [amsg_of_cmsg (mk_hup id sid EC_CONNECTION_ERROR)] /\
                g_sessions g' = g_sessions g).
Proof. exact connect_permitted. Qed.
Print Assumptions C23_permitted_only.

(** Messages for unknown sessions are answered the same way; nothing else is ever queued. *)
Theorem C23_queue_is_hups :
  forall (g : mgr) (e : mev) (g' : mgr) (o : list mobs) (m : amsg),
    mgr_step g e = (g', o) -> In (OQueued m) o ->
    exists id sid, addressee e = Some sid /\ m = amsg_of_cmsg (mk_hup id sid EC_CONNECTION_ERROR).
Proof. exact queued_hups. Qed.
Print Assumptions C23_queue_is_hups.

Example C23_case :
  let get := fun n : N => Some (svc_tcp 1 {| sa_ip := V4 n; sa_port := 80 |}) in
  map (fun x => match x with OOpen _ _ _ a => Some (sa_ip a) | _ => None end)
      (snd (mgr_run (mgr_new 65536 false 0) [MConnect get 2130706433 7; MConnect get 167772161 8; MConnect get1 1 9]))
  = [Some (V4 2130706433); None; None].
Proof. vm_compute. reflexivity. Qed.

(** C24 *)
Theorem C24_isolation :
  forall (g : mgr) (e : mev) (k sid : N),
    addressee e = Some k -> sid <> k -> find_sess (fst (mgr_step g e)) sid = find_sess g sid.
Proof. exact isolation. Qed.
Print Assumptions C24_isolation.

Theorem C24_routed :
  forall (g : mgr) (sid : N) (s : sess),
    find_sess g sid = Some s ->
    (forall m, m_session m = sid ->
       find_sess (fst (mgr_step g (MSend m))) sid = Some (fst (sess_step s (EPush (m_payload m))))) /\
    (forall n, find_sess (fst (mgr_step g (MDataAck sid n))) sid = Some (fst (sess_step s (EDataAck n)))) /\
    (forall get svc, find_sess (fst (mgr_step g (MConnect get svc sid))) sid = Some s) /\
    find_sess (fst (mgr_step g (MClose sid))) sid = None.
Proof. exact routed. Qed.
Print Assumptions C24_routed.

(** Every live session is in the state a session on its own would be in after the same events, so
    C13-C20 hold for it. *)
Theorem C24_projection :
  forall (W : N) (gw : bool) (f : factory) (es : list mev) (g : mgr) (h : list mobs) (sid : N) (s : sess),
    mgr_run (mgr_new W gw f) es = (g, h) -> find_sess g sid = Some s ->
    exists svc, sess_run (sess_new svc sid W) (map fst (since_open sid h)) =
                (s, concat (map snd (since_open sid h))).
Proof. exact projection. Qed.
Print Assumptions C24_projection.

Example C24_case :
  let '(g, h) := mgr_run (mgr_new 65536 true 0)
    [MConnect get1 5 7; MConnect get1 5 8; MSend {| m_service := 5; m_session := 7; m_payload := [1] |};
     MDataAck 8 5; MClose 8; MConnect get1 5 7] in
  option_map s_output (find_sess g 7) = Some [1] /\ find_sess g 8 = None /\ length (g_queue g) = 1%nat /\
  map fst (since_open 7 h) = [EPush [1]].
Proof. vm_compute. repeat split. Qed.
