(** One Arrow session: the shared session context, the transport task and the connection task.

    Wakers are booleans ("a waker is stored"). Every stored `session_manager_task` waker wakes the
    connection task and every stored `session_transport_task` waker wakes the session's transport
    task. A task is runnable until it returns `Pending` without having been woken. *)
From Coq Require Import NArith List Bool.
From Verif.Model Require Import Bytes Frame Service Control.
Import ListNotations.
Local Open Scope N_scope.

(** src/net/arrow/session.rs:42 *)
Definition BUFFER_CAPACITY : N := 8192.

(** Life of the transport task, src/net/arrow/session.rs:373-384. *)
Inductive phase := TConnecting | TRunning | TDone.

(** src/net/arrow/session.rs:46-60, `SessionContext`, plus the scheduling state of the two tasks:
    [s_mgr_run]/[s_tr_run] (task runnable) and [s_wait_rd]/[s_wait_wr] (the transport task is
    registered with the socket for reading/writing). The connection error is only a flag. *)
Record sess := {
  s_service : N;
  s_session : N;
  s_input : bytes;
  s_output : bytes;
  s_incap : N;
  s_outcap : N;
  s_written : N;
  s_mgr_waker : bool;
  s_tr_waker : bool;
  s_closed : bool;
  s_error : bool;
  s_phase : phase;
  s_mgr_run : bool;
  s_tr_run : bool;
  s_wait_rd : bool;
  s_wait_wr : bool
}.

(** Record update helpers. *)
Definition with_input (s : sess) (i : bytes) : sess :=
  {| s_service := s_service s; s_session := s_session s; s_input := i; s_output := s_output s;
     s_incap := s_incap s; s_outcap := s_outcap s; s_written := s_written s; s_mgr_waker := s_mgr_waker s;
     s_tr_waker := s_tr_waker s; s_closed := s_closed s; s_error := s_error s; s_phase := s_phase s;
     s_mgr_run := s_mgr_run s; s_tr_run := s_tr_run s; s_wait_rd := s_wait_rd s; s_wait_wr := s_wait_wr s |}.
Definition with_output (s : sess) (o : bytes) : sess :=
  {| s_service := s_service s; s_session := s_session s; s_input := s_input s; s_output := o;
     s_incap := s_incap s; s_outcap := s_outcap s; s_written := s_written s; s_mgr_waker := s_mgr_waker s;
     s_tr_waker := s_tr_waker s; s_closed := s_closed s; s_error := s_error s; s_phase := s_phase s;
     s_mgr_run := s_mgr_run s; s_tr_run := s_tr_run s; s_wait_rd := s_wait_rd s; s_wait_wr := s_wait_wr s |}.
Definition with_caps (s : sess) (ic oc w : N) : sess :=
  {| s_service := s_service s; s_session := s_session s; s_input := s_input s; s_output := s_output s;
     s_incap := ic; s_outcap := oc; s_written := w; s_mgr_waker := s_mgr_waker s;
     s_tr_waker := s_tr_waker s; s_closed := s_closed s; s_error := s_error s; s_phase := s_phase s;
     s_mgr_run := s_mgr_run s; s_tr_run := s_tr_run s; s_wait_rd := s_wait_rd s; s_wait_wr := s_wait_wr s |}.
Definition with_closed (s : sess) (c e : bool) : sess :=
  {| s_service := s_service s; s_session := s_session s; s_input := s_input s; s_output := s_output s;
     s_incap := s_incap s; s_outcap := s_outcap s; s_written := s_written s; s_mgr_waker := s_mgr_waker s;
     s_tr_waker := s_tr_waker s; s_closed := c; s_error := e; s_phase := s_phase s;
     s_mgr_run := s_mgr_run s; s_tr_run := s_tr_run s; s_wait_rd := s_wait_rd s; s_wait_wr := s_wait_wr s |}.
(** manager waker and manager task state *)
Definition with_mgr (s : sess) (waker run : bool) : sess :=
  {| s_service := s_service s; s_session := s_session s; s_input := s_input s; s_output := s_output s;
     s_incap := s_incap s; s_outcap := s_outcap s; s_written := s_written s; s_mgr_waker := waker;
     s_tr_waker := s_tr_waker s; s_closed := s_closed s; s_error := s_error s; s_phase := s_phase s;
     s_mgr_run := run; s_tr_run := s_tr_run s; s_wait_rd := s_wait_rd s; s_wait_wr := s_wait_wr s |}.
(** transport waker and transport task state *)
Definition with_tr (s : sess) (waker run : bool) : sess :=
  {| s_service := s_service s; s_session := s_session s; s_input := s_input s; s_output := s_output s;
     s_incap := s_incap s; s_outcap := s_outcap s; s_written := s_written s; s_mgr_waker := s_mgr_waker s;
     s_tr_waker := waker; s_closed := s_closed s; s_error := s_error s; s_phase := s_phase s;
     s_mgr_run := s_mgr_run s; s_tr_run := run; s_wait_rd := s_wait_rd s; s_wait_wr := s_wait_wr s |}.
Definition with_wait (s : sess) (rd wr : bool) : sess :=
  {| s_service := s_service s; s_session := s_session s; s_input := s_input s; s_output := s_output s;
     s_incap := s_incap s; s_outcap := s_outcap s; s_written := s_written s; s_mgr_waker := s_mgr_waker s;
     s_tr_waker := s_tr_waker s; s_closed := s_closed s; s_error := s_error s; s_phase := s_phase s;
     s_mgr_run := s_mgr_run s; s_tr_run := s_tr_run s; s_wait_rd := rd; s_wait_wr := wr |}.
Definition with_phase (s : sess) (p : phase) : sess :=
  {| s_service := s_service s; s_session := s_session s; s_input := s_input s; s_output := s_output s;
     s_incap := s_incap s; s_outcap := s_outcap s; s_written := s_written s; s_mgr_waker := s_mgr_waker s;
     s_tr_waker := s_tr_waker s; s_closed := s_closed s; s_error := s_error s; s_phase := p;
     s_mgr_run := s_mgr_run s; s_tr_run := s_tr_run s; s_wait_rd := s_wait_rd s; s_wait_wr := s_wait_wr s |}.

(** `if let Some(task) = self.session_manager_task.take() { task.wake() }` *)
Definition wake_mgr (s : sess) : sess := if s_mgr_waker s then with_mgr s false true else s.
(** `if let Some(task) = self.session_transport_task.take() { task.wake() }` *)
Definition wake_tr (s : sess) : sess := if s_tr_waker s then with_tr s false true else s.

(** src/net/arrow/session.rs:62-84, `SessionContext::new`; both tasks start runnable. *)
Definition sess_new (service session window : N) : sess :=
  {| s_service := service; s_session := session; s_input := []; s_output := []; s_incap := window;
     s_outcap := window; s_written := 0; s_mgr_waker := false; s_tr_waker := false; s_closed := false;
     s_error := false; s_phase := TConnecting; s_mgr_run := true; s_tr_run := true;
     s_wait_rd := false; s_wait_wr := false |}.

(** Observable effects of a session. *)
Inductive sobs :=
| Accepted (payload : bytes)      (* payload of an Arrow message put into the output buffer *)
| Wrote (data : bytes)            (* bytes written to the service's socket *)
| ReadIn (data : bytes)           (* bytes read from the service's socket *)
| SentData (m : amsg)             (* data message for the Arrow service *)
| SentAck (m : cmsg).             (* DATA_ACK message for the Arrow service *)

(** src/net/arrow/session.rs:310-326, `close` *)
Definition sess_close (s : sess) : sess := wake_mgr (wake_tr (with_closed s true (s_error s))).

(** src/net/arrow/session.rs:328-339, `set_error` *)
Definition sess_set_error (s : sess) : sess :=
  if s_closed s then s else sess_close (with_closed s (s_closed s) true).

(** src/net/arrow/session.rs:86-95, `process_data_ack`. The capacity is a 64-bit counter that wraps
    (release build; a debug build would panic instead). *)
Definition sess_data_ack (s : sess) (len : N) : sess :=
  wake_mgr (with_caps s ((s_incap s + len) mod 2 ^ 64) (s_outcap s) (s_written s)).

(** src/net/arrow/session.rs:113-138, `push_output_message` *)
Definition sess_push (s : sess) (payload : bytes) : sess * list sobs :=
  if s_closed s then (s, [])
  else if N.ltb (s_outcap s) (nlen payload) then (sess_set_error s, [])
  else
    let s1 := with_caps s (s_incap s) (s_outcap s - nlen payload) (s_written s) in
    let s2 := with_output s1 (s_output s1 ++ payload) in
    ((match s_output s2 with [] => s2 | _ => wake_tr s2 end), [Accepted payload]).

(** Result of `take_arrow_message`. *)
Inductive taken :=
| TkMsg (m : amsg)      (* Ready(Some(Ok)) *)
| TkError               (* Ready(Some(Err)) *)
| TkEnd                 (* Ready(None) *)
| TkPending.

(** src/net/arrow/session.rs:97-111 and 140-190, `take_data_ack` and `take_arrow_message`. [f] is the
    shared message factory. *)
Definition sess_take (f : factory) (s : sess) : taken * sess * factory * list sobs :=
  if N.ltb 0 (s_written s) then
    let len := s_written s in
    let s1 := with_caps s (s_incap s) (s_outcap s + len) 0 in
    let '(id, f') := next_id f in
    let m := mk_data_ack id (s_session s) (u32 len) in
    (TkMsg (amsg_of_cmsg m), s1, f', [SentAck m])
  else
    let take := N.min (s_incap s) (nlen (s_input s)) in
    let data := firstn (N.to_nat take) (s_input s) in
    let s1 := with_caps s (s_incap s - take) (s_outcap s) (s_written s) in
    let s2 := with_input s1 (skipn (N.to_nat take) (s_input s1)) in
    let s3 := if N.ltb (nlen (s_input s2)) BUFFER_CAPACITY then wake_tr s2 else s2 in
    match data with
    | _ :: _ =>
        let m := amsg_new (s_service s3) (s_session s3) data in
        (TkMsg m, s3, f, [SentData m])
    | [] =>
        if s_closed s3 then
          if s_error s3 then (TkError, with_closed s3 (s_closed s3) false, f, [])
          else (TkEnd, s3, f, [])
        else (TkPending, with_mgr s3 true false, f, [])
    end.

(** Outcome of a socket read/write attempt (the environment's choice). A read returns at least one
    byte, or reports the end of the stream ([RdData] with an empty list is treated as end of stream as
    in the code). A write consumes at most the offered bytes. *)
Inductive rd := RdPending | RdData (b : bytes) | RdErr.
Inductive wr := WrPending | WrOk (n : N) | WrErr.

(** src/net/arrow/session.rs:192-210 and 224-265, `poll_read_input`: returns whether it was ready. *)
Definition poll_read_input (s : sess) (r : rd) : bool * sess * list sobs :=
  if s_closed s then (true, s, [])
  else if N.leb BUFFER_CAPACITY (nlen (s_input s)) then (false, with_tr s true (s_tr_run s), [])
  else
    match r with
    | RdPending => (false, with_wait (with_tr s true (s_tr_run s)) true (s_wait_wr s), [])
    | RdData b =>
        let s0 := with_wait s false (s_wait_wr s) in
        let s1 := match b with
                  | [] => sess_close s0
                  | _ => with_input s0 (s_input s0 ++ b)
                  end in
        let s2 := match s_input s1 with [] => s1 | _ => wake_mgr s1 end in
        (true, s2, match b with [] => [] | _ => [ReadIn b] end)
    | RdErr =>
        let s1 := sess_set_error (with_wait s false (s_wait_wr s)) in
        let s2 := match s_input s1 with [] => s1 | _ => wake_mgr s1 end in
        (true, s2, [])
    end.

(** src/net/arrow/session.rs:212-222 and 267-308, `poll_write_output` *)
Definition poll_write_output (s : sess) (w : wr) : bool * sess * list sobs :=
  match s_output s with
  | [] => if s_closed s then (true, s, []) else (false, with_tr s true (s_tr_run s), [])
  | _ =>
      match w with
      | WrPending => (false, with_wait (with_tr s true (s_tr_run s)) (s_wait_rd s) true, [])
      | WrOk n =>
          let s0 := with_wait s (s_wait_rd s) false in
          let k := N.to_nat (N.min n (nlen (s_output s0))) in
          let data := firstn k (s_output s0) in
          let s1 := with_output s0 (skipn k (s_output s0)) in
          let s2 := with_caps s1 (s_incap s1) (s_outcap s1) (s_written s1 + nlen data) in
          (true, wake_mgr s2, [Wrote data])
      | WrErr => (true, sess_set_error (with_wait s (s_wait_rd s) false), [])
      end
  end.

(** src/net/arrow/session.rs:449-475, `SessionTransport::poll`. The task is marked as not runnable
    first; wake-ups during the poll (also `wake_by_ref`) make it runnable again. *)
Definition transport_poll (s0 : sess) (r : rd) (w : wr) : sess * list sobs :=
  match s_phase s0 with
  | TRunning =>
      let s := with_tr s0 (s_tr_waker s0) false in
      if s_closed s then (with_phase s TDone, [])
      else
        let '(ready_r, s1, o1) := poll_read_input s r in
        let '(ready_w, s2, o2) := poll_write_output s1 w in
        let s3 := if ready_r || ready_w then with_tr s2 (s_tr_waker s2) true else s2 in
        (s3, o1 ++ o2)
  | _ => (s0, [])
  end.

(** Events of a session: calls made by the session manager, steps of the transport task, and socket
    readiness. [ETake f]: the manager polls the session; [f] is the current value of the shared message
    factory. *)
Inductive sev :=
| EDataAck (len : N)
| EPush (payload : bytes)
| ETake (f : factory)
| EClose
| EConnected                      (* connection established: the transport starts running *)
| EConnectFailed                  (* connection error or 20 s timeout, session.rs:377-383, 436-447 *)
| ETransport (r : rd) (w : wr)    (* the executor polls the transport task *)
| EReadable                       (* the socket became readable *)
| EWritable.                      (* the socket became writable *)

Definition sess_step (s : sess) (e : sev) : sess * list sobs :=
  match e with
  | EDataAck len => (sess_data_ack s len, [])
  | EPush p => sess_push s p
  | ETake f => let '(_, s', _, o) := sess_take f s in (s', o)
  | EClose => (sess_close s, [])
  | EConnected => match s_phase s with TConnecting => (with_phase s TRunning, []) | _ => (s, []) end
  | EConnectFailed =>
      match s_phase s with TConnecting => (with_phase (sess_set_error s) TDone, []) | _ => (s, []) end
  | ETransport r w => transport_poll s r w
  | EReadable =>
      if s_wait_rd s then (with_tr (with_wait s false (s_wait_wr s)) (s_tr_waker s) true, []) else (s, [])
  | EWritable =>
      if s_wait_wr s then (with_tr (with_wait s (s_wait_rd s) false) (s_tr_waker s) true, []) else (s, [])
  end.

Fixpoint sess_run (s : sess) (es : list sev) : sess * list sobs :=
  match es with
  | [] => (s, [])
  | e :: es' =>
      let '(s1, o1) := sess_step s e in
      let '(s2, o2) := sess_run s1 es' in
      (s2, o1 ++ o2)
  end.
