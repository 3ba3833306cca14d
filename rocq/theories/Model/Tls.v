(** The TLS connection to the service: src/net/tls.rs and the timeout of src/net/arrow/mod.rs:670-700.

    OpenSSL is not modelled. A call of it is a tree of operations on the stream below it ([call]); it ends with a result. The
    socket is a function of its state and of the waker it is polled with ([transport]). Wakers are numbers. Errors are
    [EWouldBlock] and all others, which carry a number. *)
From Coq Require Import String NArith ZArith List Bool.
From Verif.Model Require Import Bytes Text.
Import ListNotations.
Local Open Scope N_scope.

Definition waker := N.
Inductive ioerr := EWouldBlock | EOther (code : N).
Inductive io (A : Type) : Type := IoOk (a : A) | IoErr (e : ioerr).
Arguments IoOk {A} _.
Arguments IoErr {A} _.
Inductive poll (A : Type) : Type := Pending | Ready (a : A).
Arguments Pending {A}.
Arguments Ready {A} _.

(** A call of OpenSSL: the operations on `InnerSslStream` it makes and what it returns. *)
Inductive call (R : Type) : Type :=
| Done (r : R)
| CRead (len : N) (k : io bytes -> call R)
| CWrite (data : bytes) (k : io N -> call R)
| CFlush (k : io unit -> call R).
Arguments Done {R} _.
Arguments CRead {R} _ _.
Arguments CWrite {R} _ _.
Arguments CFlush {R} _.

(** The socket: the methods of `AsyncRead` and `AsyncWrite` *)
Record transport (T : Type) := {
  tr_read : T -> waker -> N -> T * poll (io bytes);
  tr_write : T -> waker -> bytes -> T * poll (io N);
  tr_flush : T -> waker -> T * poll (io unit);
  tr_shutdown : T -> waker -> T * poll (io unit) }.
Arguments tr_read {T} _ _ _ _.
Arguments tr_write {T} _ _ _ _.
Arguments tr_flush {T} _ _ _.
Arguments tr_shutdown {T} _ _ _.

(** The result of `SslStream::shutdown`: done, an I/O error or another error of OpenSSL (`Error::into_io_error` fails) *)
Inductive shut := ShutOk | ShutIo (e : ioerr) | ShutSsl (code : N).
(** `Result<SslStream, HandshakeError>` with the state of OpenSSL where there is one *)
Inductive hands (E : Type) : Type := HsDone (e : E) | HsSetup (code : N) | HsFailure (code : N) | HsBlock (e : E).
Arguments HsDone {E} _.
Arguments HsSetup {E} _.
Arguments HsFailure {E} _.
Arguments HsBlock {E} _.
(** The operations of OpenSSL used by the client *)
Record engine (E : Type) := {
  en_read : E -> N -> call (E * io bytes);
  en_write : E -> bytes -> call (E * io N);
  en_flush : E -> call (E * io unit);
  en_shutdown : E -> call (E * shut);
  en_connect : bytes -> call (hands E);
  en_handshake : E -> call (hands E) }.
Arguments en_read {E} _ _ _.
Arguments en_write {E} _ _ _.
Arguments en_flush {E} _ _.
Arguments en_shutdown {E} _ _.
Arguments en_connect {E} _ _.
Arguments en_handshake {E} _ _.

Section Stream.
  Context {T E : Type}.
  Variable tr : transport T.
  Variable en : engine E.

  (** The thread: the context of tls.rs:83, the socket and the polls made of it (the waker; pending or not), newest first *)
  Record world := { w_ctx : option waker; w_sock : T; w_polls : list (waker * bool) }.
  Definition set_ctx (c : option waker) (w : world) : world := {| w_ctx := c; w_sock := w_sock w; w_polls := w_polls w |}.
  Definition polled {A} (k : waker) (s : T) (p : poll A) (w : world) : world :=
    {| w_ctx := w_ctx w; w_sock := s; w_polls := (k, match p with Pending => true | Ready _ => false end) :: w_polls w |}.

  (** tls.rs:107-119 with the bodies of tls.rs:137-181: the socket is polled with the waker of the context, pending is
      reported as [EWouldBlock]; without a context the thread panics ([None]) *)
  Definition with_context {A} (op : T -> waker -> T * poll (io A)) (w : world) : world * option (io A) :=
    match w_ctx w with
    | None => (w, None)
    | Some k =>
        let '(s, p) := op (w_sock w) k in
        (polled k s p w, Some (match p with Ready r => r | Pending => IoErr EWouldBlock end))
    end.

  Fixpoint run {R} (c : call R) (w : world) : world * option R :=
    match c with
    | Done r => (w, Some r)
    | CRead n k => match with_context (fun s wk => tr_read tr s wk n) w with
                   | (w', None) => (w', None)
                   | (w', Some r) => run (k r) w'
                   end
    | CWrite d k => match with_context (fun s wk => tr_write tr s wk d) w with
                    | (w', None) => (w', None)
                    | (w', Some r) => run (k r) w'
                    end
    | CFlush k => match with_context (tr_flush tr) w with
                  | (w', None) => (w', None)
                  | (w', Some r) => run (k r) w'
                  end
    end.

  (** tls.rs:87-105: the context is set before and removed after the call, also when it panics *)
  Definition guarded {R} (k : waker) (c : call R) (w : world) : world * option R :=
    let '(w', r) := run c (set_ctx (Some k) w) in (set_ctx None w', r).

  Definition io_poll {A} (r : io A) : poll (io A) :=
    match r with IoErr EWouldBlock => Pending | _ => Ready r end.

  (** tls.rs:192-208; [room] is the free space of the buffer, `advance` panics beyond it *)
  Definition poll_read (k : waker) (room : N) (e : E) (w : world) : world * option (E * poll (io bytes)) :=
    match guarded k (en_read en e room) w with
    | (w', None) => (w', None)
    | (w', Some (e', r)) =>
        match r with
        | IoOk d => if nlen d <=? room then (w', Some (e', Ready r)) else (w', None)
        | IoErr _ => (w', Some (e', io_poll r))
        end
    end.
  (** tls.rs:215-229 *)
  Definition poll_write (k : waker) (d : bytes) (e : E) (w : world) : world * option (E * poll (io N)) :=
    match guarded k (en_write en e d) w with
    | (w', None) => (w', None)
    | (w', Some (e', r)) => (w', Some (e', io_poll r))
    end.
  (** tls.rs:231-241 *)
  Definition poll_flush (k : waker) (e : E) (w : world) : world * option (E * poll (io unit)) :=
    match guarded k (en_flush en e) w with
    | (w', None) => (w', None)
    | (w', Some (e', r)) => (w', Some (e', io_poll r))
    end.
  (** tls.rs:243-266; the context is still set while the socket is shut down, but that does not use it *)
  Definition poll_shutdown (k : waker) (e : E) (w : world) : world * option (E * poll (io unit)) :=
    match guarded k (en_shutdown en e) w with
    | (w', None) => (w', None)
    | (w', Some (e', ShutIo x)) => (w', Some (e', io_poll (IoErr x)))
    | (w', Some (e', ShutSsl c)) => (w', Some (e', Ready (IoErr (EOther c))))
    | (w', Some (e', ShutOk)) =>
        let '(s, p) := tr_shutdown tr (w_sock w') k in (polled k s p w', Some (e', p))
    end.

  (** tls.rs:289-311, `TlsConnect::poll`; the result of the handshake is an error ([inr]) or the stream *)
  Definition finished (h : hands E) : option (E + N) :=
    match h with HsDone e => Some (inl e) | HsSetup c | HsFailure c => Some (inr c) | HsBlock _ => None end.
  Definition poll_handshake (k : waker) (h : option (hands E)) (w : world) : world * option (option (hands E) * poll (E + N)) :=
    match h with
    | None => (set_ctx None w, None)
    | Some (HsBlock e) =>
        match guarded k (en_handshake en e) w with
        | (w', None) => (w', None)
        | (w', Some h') => match finished h' with
                           | Some r => (w', Some (None, Ready r))
                           | None => (w', Some (Some h', Pending))
                           end
        end
    | Some h' => (set_ctx None w, match finished h' with Some r => Some (None, Ready r) | None => None end)
    end.

  (** tls.rs:352-374: the end of the asynchronous function after the socket is connected: the first step of the handshake, then
      `TlsConnect`. A future that is polled after its end panics. *)
  Inductive conn := CStart (hostname : bytes) | CShake (h : hands E) | CEnd.
  Definition poll_shake (k : waker) (h : hands E) (w : world) : world * option (conn * poll (E + N)) :=
    match poll_handshake k (Some h) w with
    | (w', None) => (w', None)
    | (w', Some (Some h', p)) => (w', Some (CShake h', p))
    | (w', Some (None, p)) => (w', Some (CEnd, p))
    end.
  Definition poll_connect (k : waker) (c : conn) (w : world) : world * option (conn * poll (E + N)) :=
    match c with
    | CStart hostname =>
        match guarded k (en_connect en hostname) w with
        | (w', None) => (w', None)
        | (w', Some h) => poll_shake k h w'
        end
    | CShake h => poll_shake k h w
    | CEnd => (w, None)
    end.
End Stream.
Arguments world : clear implicits.
Arguments conn : clear implicits.

(** tls.rs:323-327: the name in the certificate *)
Definition hostname (addr : bytes) : bytes :=
  match rfind_char 58 addr with Some n => firstn n addr | None => addr end.

(** ** The choice of the address: tls.rs:329-350

    Time is in nanoseconds. An address is given with the time until its connection succeeds or fails; [None] if it never
    does. The futures of `then`, `map`, `buffered`, `filter_map` and `next` are polled at given times. *)
Local Open Scope Z_scope.
Definition SECOND : Z := 1000000000.
Record attempt := { at_id : N; at_time : option Z; at_ok : bool }.
(** A connection in progress: when it ends *)
Record progress := { pg_end : option Z; pg_att : attempt }.
(** [rc_left]: the addresses the stream did not give yet, [rc_first]: none was given yet, [rc_sleep]: the address that
    waits in `then` and the end of its sleep, [rc_queue]: the queue of `buffered`, [rc_starts]: all connections started so
    far and when, newest first (only for statements) *)
Record race := { rc_left : list attempt; rc_first : bool; rc_sleep : option (Z * attempt); rc_queue : list progress;
                 rc_starts : list (N * Z) }.
Definition race_new (l : list attempt) : race :=
  {| rc_left := l; rc_first := true; rc_sleep := None; rc_queue := []; rc_starts := [] |}.

(** tls.rs:332-340, `then`: the next address; the first one at once, the others one second after they are polled first *)
Inductive given := GItem (a : attempt) | GWait | GEnd.
Definition then_poll (now : Z) (r : race) : given * race :=
  match rc_sleep r with
  | Some (t, a) =>
      if t <=? now
      then (GItem a, {| rc_left := rc_left r; rc_first := rc_first r; rc_sleep := None; rc_queue := rc_queue r; rc_starts := rc_starts r |})
      else (GWait, r)
  | None =>
      match rc_left r with
      | [] => (GEnd, r)
      | a :: l =>
          if rc_first r
          then (GItem a, {| rc_left := l; rc_first := false; rc_sleep := None; rc_queue := rc_queue r; rc_starts := rc_starts r |})
          else (GWait, {| rc_left := l; rc_first := false; rc_sleep := Some (now + SECOND, a); rc_queue := rc_queue r;
                          rc_starts := rc_starts r |})
      end
  end.
Definition start (now : Z) (a : attempt) (r : race) : race :=
  {| rc_left := rc_left r; rc_first := rc_first r; rc_sleep := rc_sleep r;
     rc_queue := rc_queue r ++ [{| pg_end := option_map (Z.add now) (at_time a); pg_att := a |}];
     rc_starts := (at_id a, now) :: rc_starts r |}.
(** tls.rs:341-342: `buffered` fills its queue up to four connections; [n] is the room left *)
Fixpoint fill (n : nat) (now : Z) (r : race) : race :=
  match n with
  | O => r
  | S n' => match then_poll now r with
            | (GItem a, r') => fill n' now (start now a r')
            | (_, r') => r'
            end
  end.
Definition WIDTH : nat := 4.
(** The first connection of the queue, if it has ended *)
Definition ended (now : Z) (p : progress) : bool := match pg_end p with Some t => t <=? now | None => false end.
(** `Buffered::poll_next`: a connection that ended, nothing yet, or the end *)
Inductive taken := TItem (a : attempt) | TWait | TEnd.
Definition buffered_poll (now : Z) (r : race) : taken * race :=
  let r := fill (WIDTH - length (rc_queue r)) now r in
  match rc_queue r with
  | [] => (match rc_left r, rc_sleep r with [], None => TEnd | _, _ => TWait end, r)
  | p :: q =>
      if ended now p
      then (TItem (pg_att p), {| rc_left := rc_left r; rc_first := rc_first r; rc_sleep := rc_sleep r; rc_queue := q; rc_starts := rc_starts r |})
      else (TWait, r)
  end.
(** tls.rs:343-350, `filter_map` and `next`: the first connection that succeeded; [None] if there is none. Each step but the
    last takes one address, so the fuel of [race_poll] suffices. *)
Inductive raced := RWait (r : race) | RDone (winner : option N) (r : race) | ROut.
Fixpoint next_socket (fuel : nat) (now : Z) (r : race) : raced :=
  match fuel with
  | O => ROut
  | S f => match buffered_poll now r with
           | (TItem a, r') => if at_ok a then RDone (Some (at_id a)) r' else next_socket f now r'
           | (TWait, r') => RWait r'
           | (TEnd, r') => RDone None r'
           end
  end.
Definition todo (r : race) : nat :=
  (length (rc_left r) + match rc_sleep r with Some _ => 1 | None => 0 end + length (rc_queue r))%nat.
Definition race_poll (now : Z) (r : race) : raced := next_socket (S (todo r)) now r.

(** Polls at the given times, until there is a result *)
Fixpoint race_polls (times : list Z) (r : race) : raced :=
  match times with
  | [] => RWait r
  | t :: l => match race_poll t r with RWait r' => race_polls l r' | o => o end
  end.

(** The executor polls the task as soon as the sleep or a connection ends. *)
Definition events (now : Z) (r : race) : list Z :=
  filter (fun t => now <? t)
    (match rc_sleep r with Some (t, _) => [t] | None => [] end ++
     flat_map (fun p => match pg_end p with Some t => [t] | None => [] end) (rc_queue r)).
Definition earliest (l : list Z) : option Z :=
  match l with [] => None | t :: l' => Some (fold_left Z.min l' t) end.
(** When the race ends and how; [LNever] if nothing happens any more *)
Inductive lived := LEnd (at_ : Z) (winner : option N) | LNever | LOut.
Fixpoint live (fuel : nat) (now : Z) (r : race) : lived :=
  match fuel with
  | O => LOut
  | S f => match race_poll now r with
           | RDone w _ => LEnd now w
           | ROut => LOut
           | RWait r' => match earliest (events now r') with Some t => live f t r' | None => LNever end
           end
  end.
Definition race_run (l : list attempt) : lived := live (S (3 * length l)) 0 (race_new l).

(** src/net/arrow/mod.rs:52, 685-699: the attempt to connect fails after 20 seconds. [shake] is the time of the handshake. The
    resolution of the name is left out. *)
Definition CONNECT_LIMIT : Z := 20 * SECOND.
Definition connects (shake : Z) (l : list attempt) : option N :=
  match race_run l with
  | LEnd t (Some w) => if t + shake <=? CONNECT_LIMIT then Some w else None
  | _ => None
  end.
