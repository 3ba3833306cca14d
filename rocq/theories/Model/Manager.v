(** The session manager: creates sessions, routes messages to them and polls them. *)
From Coq Require Import NArith List Bool.
From Verif.Model Require Import Bytes Frame Service Control Alist Session.
Import ListNotations.
Local Open Scope N_scope.

(** src/net/arrow/session.rs:479-490, `SessionManager`. [g_task]: a waker is stored in `task`;
    [g_run]: the connection task is runnable for a reason other than a session's waker. The message
    factory is the shared counter. Logger and connector are not part of the state. *)
Record mgr := {
  g_window : N;
  g_gateway : bool;
  g_factory : factory;
  g_queue : list amsg;
  g_sessions : list (N * sess);
  g_order : list N;
  g_task : bool;
  g_run : bool
}.

(** src/net/arrow/session.rs:498-518, `SessionManager::new` *)
Definition mgr_new (window : N) (gateway : bool) (f : factory) : mgr :=
  {| g_window := window; g_gateway := gateway; g_factory := f; g_queue := []; g_sessions := [];
     g_order := []; g_task := false; g_run := true |}.

Definition set_factory (g : mgr) (f : factory) : mgr :=
  {| g_window := g_window g; g_gateway := g_gateway g; g_factory := f; g_queue := g_queue g;
     g_sessions := g_sessions g; g_order := g_order g; g_task := g_task g; g_run := g_run g |}.
Definition set_queue (g : mgr) (q : list amsg) : mgr :=
  {| g_window := g_window g; g_gateway := g_gateway g; g_factory := g_factory g; g_queue := q;
     g_sessions := g_sessions g; g_order := g_order g; g_task := g_task g; g_run := g_run g |}.
Definition set_sessions (g : mgr) (l : list (N * sess)) : mgr :=
  {| g_window := g_window g; g_gateway := g_gateway g; g_factory := g_factory g; g_queue := g_queue g;
     g_sessions := l; g_order := g_order g; g_task := g_task g; g_run := g_run g |}.
Definition set_order (g : mgr) (l : list N) : mgr :=
  {| g_window := g_window g; g_gateway := g_gateway g; g_factory := g_factory g; g_queue := g_queue g;
     g_sessions := g_sessions g; g_order := l; g_task := g_task g; g_run := g_run g |}.
Definition set_task (g : mgr) (task run : bool) : mgr :=
  {| g_window := g_window g; g_gateway := g_gateway g; g_factory := g_factory g; g_queue := g_queue g;
     g_sessions := g_sessions g; g_order := g_order g; g_task := task; g_run := run |}.

(** Replace the state of a session. *)
Definition set_sess (g : mgr) (sid : N) (s : sess) : mgr := set_sessions g (ainsert sid s (g_sessions g)).
Definition find_sess (g : mgr) (sid : N) : option sess := alookup sid (g_sessions g).

(** Observable effects. [OOpen]: a network connection is opened. [OSess sid e o]: event [e] happened to
    session [sid] with effects [o]. [OHup] and [OMsg] are messages handed over to the connection, tagged
    with their origin: the queue, a session, or the end of a session with its error code. *)
Inductive origin := FromQueue | FromSession (sid : N) | EndOf (sid code : N).
Inductive mobs :=
| OOpen (sid : N) (t : svc_type) (mac : N) (a : saddr)
| OSess (sid : N) (e : sev) (o : list sobs)
| ORemoved (sid : N)
| OQueued (m : amsg)
| OMsg (from : origin) (m : amsg).

(** `if let Some(task) = self.task.take() { task.wake() }` *)
Definition wake_task (g : mgr) : mgr := if g_task g then set_task g false true else g.

(** src/net/arrow/session.rs:647-656, `create_hup_message` *)
Definition create_hup (g : mgr) (sid code : N) : amsg * mgr :=
  let '(id, f) := next_id (g_factory g) in
  (amsg_of_cmsg (mk_hup id sid code), set_factory g f).

(** src/net/arrow/session.rs:595-644, `connect_inner`: the connection parameters or an error. [get] is
    `svc_table.get`. *)
Definition connect_inner (g : mgr) (get : N -> option service) (svc sid : N)
  : option (svc_type * N * saddr) :=
  match find_sess g sid with
  | Some _ => None
  | None =>
      match get svc with
      | None => None
      | Some s =>
          match s_addr s with
          | None => None
          | Some a =>
              if negb (g_gateway g) && negb (is_loopback (sa_ip a)) then None
              else Some (s_type s, match s_mac s with Some m => m | None => 0 end, a)
          end
      end
  end.

(** src/net/arrow/session.rs:527-550, `connect`. The new session is polled for the first time when the
    connection task runs next, so its [s_mgr_run] is whether that task is runnable now. *)
Definition mgr_connect (g : mgr) (get : N -> option service) (svc sid : N) : mgr * list mobs :=
  match connect_inner g get svc sid with
  | Some (t, mac, a) =>
      let g1 := set_order g (g_order g ++ [sid]) in
      let g2 := wake_task g1 in
      let s := sess_new svc sid (g_window g) in
      (set_sess g2 sid (with_mgr s (s_mgr_waker s) (g_run g2)), [OOpen sid t mac a])
  | None =>
      let '(m, g1) := create_hup g sid EC_CONNECTION_ERROR in
      (wake_task (set_queue g1 (g_queue g1 ++ [m])), [OQueued m])
  end.

(** src/net/arrow/session.rs:554-571, `send` *)
Definition mgr_send (g : mgr) (m : amsg) : mgr * list mobs :=
  let sid := m_session m in
  match find_sess g sid with
  | Some s =>
      let '(s', o) := sess_step s (EPush (m_payload m)) in
      (set_sess g sid s', [OSess sid (EPush (m_payload m)) o])
  | None =>
      let '(h, g1) := create_hup g sid EC_CONNECTION_ERROR in
      (wake_task (set_queue g1 (g_queue g1 ++ [h])), [OQueued h])
  end.

(** src/net/arrow/session.rs:574-584, `close`. The context of the removed session is closed; its
    transport task (which keeps the context alive) ends the next time it runs. *)
Definition mgr_close (g : mgr) (sid : N) : mgr * list mobs :=
  match find_sess g sid with
  | Some s =>
      let '(_, o) := sess_step s EClose in
      (set_sessions g (aremove sid (g_sessions g)), [OSess sid EClose o; ORemoved sid])
  | None => (g, [])
  end.

(** src/net/arrow/session.rs:587-591, `process_data_ack` *)
Definition mgr_data_ack (g : mgr) (sid len : N) : mgr * list mobs :=
  match find_sess g sid with
  | Some s =>
      let '(s', o) := sess_step s (EDataAck len) in
      (set_sess g sid s', [OSess sid (EDataAck len) o])
  | None => (g, [])
  end.

(** The loop of src/net/arrow/session.rs:687-724; the first result tells whether a message was
    returned. Transport steps of other threads between two iterations commute with the iterations
    (each session has its own lock), so the loop is one step. *)
Fixpoint poll_loop (n : nat) (g : mgr) : bool * mgr * list mobs :=
  match n with
  | O => (false, g, [])
  | S n' =>
      match g_order g with
      | [] => poll_loop n' g
      | sid :: rest =>
          let g0 := set_order g rest in
          match find_sess g0 sid with
          | None => poll_loop n' g0
          | Some s =>
              let f := g_factory g0 in
              let '(t, s', f', o) := sess_take f s in
              let g1 := set_factory g0 f' in
              match t with
              | TkPending =>
                  let g2 := set_order (set_sess g1 sid s') (g_order g1 ++ [sid]) in
                  let '(r, g3, os) := poll_loop n' g2 in
                  (r, g3, OSess sid (ETake f) o :: os)
              | TkEnd =>
                  let g2 := set_sessions g1 (aremove sid (g_sessions g1)) in
                  let '(h, g3) := create_hup g2 sid EC_NO_ERROR in
                  (true, g3, [OSess sid (ETake f) o; OMsg (EndOf sid EC_NO_ERROR) h])
              | TkMsg m =>
                  let g2 := set_order (set_sess g1 sid s') (g_order g1 ++ [sid]) in
                  (true, g2, [OSess sid (ETake f) o; OMsg (FromSession sid) m])
              | TkError =>
                  let g2 := set_sessions g1 (aremove sid (g_sessions g1)) in
                  let '(h, g3) := create_hup g2 sid EC_CONNECTION_ERROR in
                  (true, g3, [OSess sid (ETake f) o; OMsg (EndOf sid EC_CONNECTION_ERROR) h])
              end
          end
      end
  end.

(** src/net/arrow/session.rs:680-734, `poll_next`. A poll that returns a message leaves the connection
    task running; otherwise it goes to sleep with its waker stored. *)
Definition mgr_poll (g : mgr) : mgr * list mobs :=
  match g_queue g with
  | m :: q => (set_task (set_queue g q) (g_task g) true, [OMsg FromQueue m])
  | [] =>
      let '(r, g1, o) := poll_loop (length (g_order g)) g in
      if r then (set_task g1 (g_task g1) true, o)
      else (set_task g1 true false, o)
  end.

(** Steps of a session's transport task and of its socket. *)
Inductive tev := TConnected | TConnectFailed | TPolled (r : rd) (w : wr) | TReadable | TWritable.
Definition sev_of (t : tev) : sev :=
  match t with
  | TConnected => EConnected
  | TConnectFailed => EConnectFailed
  | TPolled r w => ETransport r w
  | TReadable => EReadable
  | TWritable => EWritable
  end.

(** [MIds f]: other users of the shared message factory have taken IDs; its counter is now [f]. *)
Inductive mev :=
| MConnect (get : N -> option service) (svc sid : N)
| MSend (m : amsg)
| MClose (sid : N)
| MDataAck (sid len : N)
| MPoll
| MTransport (sid : N) (t : tev)
| MIds (f : factory).

Definition mgr_step (g : mgr) (e : mev) : mgr * list mobs :=
  match e with
  | MConnect get svc sid => mgr_connect g get svc sid
  | MSend m => mgr_send g m
  | MClose sid => mgr_close g sid
  | MDataAck sid len => mgr_data_ack g sid len
  | MPoll => mgr_poll g
  | MTransport sid t =>
      match find_sess g sid with
      | Some s =>
          let '(s', o) := sess_step s (sev_of t) in
          (set_sess g sid s', [OSess sid (sev_of t) o])
      | None => (g, [])
      end
  | MIds f => (set_factory g f, [])
  end.

Fixpoint mgr_run (g : mgr) (es : list mev) : mgr * list mobs :=
  match es with
  | [] => (g, [])
  | e :: es' =>
      let '(g1, o1) := mgr_step g e in
      let '(g2, o2) := mgr_run g1 es' in
      (g2, o1 ++ o2)
  end.
