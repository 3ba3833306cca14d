(** One connection on the bytes of its TLS stream: the framed stream, the client and the sink. *)
From Coq Require Import NArith ZArith List Bool.
From Verif.Model Require Import Bytes Frame Service Control Alist Session Manager Client.
Import ListNotations.
Local Open Scope N_scope.

(** ** The framed stream

    `ArrowCodec.framed(stream)` (src/net/arrow/mod.rs:696) is `FramedImpl` of the tokio-util crate driving
    src/net/arrow/proto/codec.rs:48-57. Its source is not in the repository; what follows is its documented
    behaviour: `poll_next` decodes as long as the codec returns frames and reads otherwise; at the end of
    the stream an unfinished frame is an error; after an error the stream ends. *)

(** The result of one read of the TLS stream: bytes (none at the end of the stream) or an error. *)
Inductive sread := SData (b : bytes) | SError.

(** The read side of `FramedImpl`. *)
Record framed := { f_buf : bytes; f_readable : bool; f_eof : bool; f_errored : bool }.
Definition framed_new : framed := {| f_buf := []; f_readable := false; f_eof := false; f_errored := false |}.

(** `Poll<Option<Result<ArrowMessage, _>>>` *)
Inductive fnext := FPending | FItem (m : amsg) | FError | FEnd.

(** The part of `poll_next` before the read; [None]: go on reading. The codec never panics (C03). *)
Definition framed_decode (w : framed) : option (fnext * framed) :=
  if f_errored w then
    Some (FEnd, {| f_buf := f_buf w; f_readable := false; f_eof := f_eof w; f_errored := false |})
  else if f_readable w then
    match amsg_decode (f_buf w) with
    | DMsg m rest =>
        Some (FItem m, {| f_buf := rest; f_readable := true; f_eof := f_eof w; f_errored := false |})
    | DErr | DPanic =>
        Some (FError, {| f_buf := f_buf w; f_readable := true; f_eof := f_eof w; f_errored := true |})
    | DMore =>
        if f_eof w then
          match f_buf w with
          | [] => Some (FEnd, {| f_buf := []; f_readable := false; f_eof := true; f_errored := false |})
          | b => Some (FError, {| f_buf := b; f_readable := true; f_eof := true; f_errored := true |})
          end
        else None
    end
  else None.

(** `poll_next`; [sock] are the results of the coming reads, the read after them is `Pending`. *)
Fixpoint framed_next (w : framed) (sock : list sread) : fnext * framed * list sread :=
  match framed_decode w with
  | Some (x, w') => (x, w', sock)
  | None =>
      match sock with
      | [] => (FPending, {| f_buf := f_buf w; f_readable := false; f_eof := f_eof w; f_errored := false |}, [])
      | SError :: sock' =>
          (FError, {| f_buf := f_buf w; f_readable := false; f_eof := f_eof w; f_errored := true |}, sock')
      | SData [] :: sock' =>
          if f_eof w
          then (FEnd, {| f_buf := f_buf w; f_readable := false; f_eof := true; f_errored := false |}, sock')
          else framed_next {| f_buf := f_buf w; f_readable := true; f_eof := true; f_errored := false |} sock'
      | SData b :: sock' =>
          framed_next {| f_buf := f_buf w ++ b; f_readable := true; f_eof := false; f_errored := false |} sock'
      end
  end.

(** ** The client on the framed stream *)

(** What the client sees; [clock n] is the time and the environment of the [n]-th item of the poll. *)
Definition item_of (clock : nat -> Z * env) (n : nat) (x : fnext) : option sitem :=
  match x with
  | FPending => None
  | FItem m => Some (SMsg (fst (clock n)) (snd (clock n)) m)
  | FError => Some SFail
  | FEnd => Some SEnd
  end.

(** The loop of src/net/arrow/mod.rs:652-666; [None]: out of fuel. *)
Fixpoint wire_loop (fuel : nat) (clock : nat -> Z * env) (n : nat) (c : ctx) (w : framed) (sock : list sread)
  : option (polled * ctx * list cobs * framed * list sread) :=
  match fuel with
  | O => None
  | S f =>
      let '(p, c1, o1) := ctx_poll c in
      match p with
      | PPending =>
          let '(x, w1, sock1) := framed_next w sock in
          match item_of clock n x with
          | None => Some (PPending, c1, o1, w1, sock1)
          | Some i =>
              let '(r, c2, o2) := feed_item c1 i in
              match r with
              | Some k => Some (PError k, c2, o1 ++ o2, w1, sock1)
              | None =>
                  match wire_loop f clock (S n) c2 w1 sock1 with
                  | Some (p', c3, o3, w2, sock2) => Some (p', c3, o1 ++ o2 ++ o3, w2, sock2)
                  | None => None
                  end
              end
          end
      | _ => Some (p, c1, o1, w, sock)
      end
  end.

(** Bytes not yet decoded. *)
Definition sock_bytes (sock : list sread) : bytes :=
  flat_map (fun r => match r with SData b => b | SError => [] end) sock.

(** src/net/arrow/mod.rs:640-667, `ArrowClient::poll_next`. Every turn of the loop takes a frame or ends
    the stream, so the number of bytes bounds the number of turns. *)
Definition wire_poll (clock : nat -> Z * env) (c : ctx) (w : framed) (sock : list sread)
  : option (polled * ctx * list cobs * framed * list sread) :=
  let fuel := (length (f_buf w) + length (sock_bytes sock) + 3)%nat in
  let '(x, w1, sock1) := framed_next w sock in
  match item_of clock O x with
  | None => wire_loop fuel clock 1 c w1 sock1
  | Some i =>
      let '(r, c1, o1) := feed_item c i in
      match r with
      | Some k => Some (PError k, c1, o1, w1, sock1)
      | None =>
          match wire_loop fuel clock 1 c1 w1 sock1 with
          | Some (p, c2, o2, w2, sock2) => Some (p, c2, o1 ++ o2, w2, sock2)
          | None => None
          end
      end
  end.

(** ** The connection *)

(** [q_item]: the message that `send_all` has taken from the client but that the sink was not ready for;
    [q_buf]: the write buffer of `FramedImpl`; [q_wire]: everything written to the TLS stream so far. *)
Record wconn := {
  q_conn : conn;
  q_in : framed;
  q_sock : list sread;
  q_item : option amsg;
  q_buf : bytes;
  q_wire : bytes
}.

(** tokio-util: the sink is ready while its buffer is shorter than this. *)
Definition BACKPRESSURE_BOUNDARY : N := 8192.

(** The steps of the connection future, src/net/arrow/mod.rs:700-722. `sink.send_all(&mut arrow_client)`
    takes a message ([WNext]) when it has none in hand, gives it to the sink when that is ready ([WGive]),
    and writes from the sink's buffer ([WFlush n]: the stream accepts at most [n] bytes). Any order of these
    steps is allowed here, the code's among them. Closing the sink at the end flushes, too. *)
Inductive wev :=
| WArrive (r : sread)
| WNext (clock : nat -> Z * env)
| WGive
| WFlush (n : nat)
| WTick (t : Z) (v0 v1 v2 : view)
| WSinkFailed
| WTransport (sid : N) (e : tev).

Definition with_conn (q : wconn) (k : conn) : wconn :=
  {| q_conn := k; q_in := q_in q; q_sock := q_sock q; q_item := q_item q; q_buf := q_buf q; q_wire := q_wire q |}.

Definition wire_step (q : wconn) (e : wev) : option (wconn * list cobs) :=
  match e with
  | WArrive r =>
      Some ({| q_conn := q_conn q; q_in := q_in q; q_sock := q_sock q ++ [r]; q_item := q_item q;
               q_buf := q_buf q; q_wire := q_wire q |}, [])
  | WNext clock =>
      match k_result (q_conn q), q_item q with
      | None, None =>
          match wire_poll clock (k_ctx (q_conn q)) (q_in q) (q_sock q) with
          | None => None
          | Some (p, c, o, w, sock) =>
              let upd r item := {| q_conn := {| k_ctx := c; k_result := r |}; q_in := w; q_sock := sock;
                                   q_item := item; q_buf := q_buf q; q_wire := q_wire q |} in
              match p with
              | PReady m => Some (upd None (Some m), o ++ [XSent m])
              | PError kind => Some (upd (Some (Failed kind)) None, o)
              | PEnd => Some (upd (Some (final_result c)) None, o)
              | PPending => Some (upd None None, o)
              end
          end
      | _, _ => Some (q, [])
      end
  | WGive =>
      match q_item q with
      | Some m =>
          if N.ltb (nlen (q_buf q)) BACKPRESSURE_BOUNDARY
          then Some ({| q_conn := q_conn q; q_in := q_in q; q_sock := q_sock q; q_item := None;
                        q_buf := q_buf q ++ amsg_encode m; q_wire := q_wire q |}, [])
          else Some (q, [])
      | None => Some (q, [])
      end
  | WFlush n =>
      Some ({| q_conn := q_conn q; q_in := q_in q; q_sock := q_sock q; q_item := q_item q;
               q_buf := skipn n (q_buf q); q_wire := q_wire q ++ firstn n (q_buf q) |}, [])
  | WTick t v0 v1 v2 => let '(k, o) := conn_step (q_conn q) (KTick t v0 v1 v2) in Some (with_conn q k, o)
  | WSinkFailed => let '(k, o) := conn_step (q_conn q) KSinkFailed in Some (with_conn q k, o)
  | WTransport sid te => let '(k, o) := conn_step (q_conn q) (KTransport sid te) in Some (with_conn q k, o)
  end.

Fixpoint wire_run (q : wconn) (es : list wev) : option (wconn * list cobs) :=
  match es with
  | [] => Some (q, [])
  | e :: es' =>
      match wire_step q e with
      | None => None
      | Some (q1, o1) =>
          match wire_run q1 es' with
          | None => None
          | Some (q2, o2) => Some (q2, o1 ++ o2)
          end
      end
  end.

(** A new connection and its whole history; [None] (out of fuel) is excluded by a theorem. *)
Definition wire_connection (t : Z) (i : identity) (v1 v2 : view) (es : list wev) : option (wconn * list cobs) :=
  let '(k, o) := conn_new t i v1 v2 in
  match wire_run {| q_conn := k; q_in := framed_new; q_sock := []; q_item := None; q_buf := []; q_wire := [] |} es with
  | None => None
  | Some (q, o') => Some (q, o ++ o')
  end.
