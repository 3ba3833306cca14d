(** The end of `connect`: what happens between the end of the client's stream and the return of the call. *)
From Coq Require Import NArith ZArith List Bool.
From Verif.Model Require Import Bytes Frame Service Control Alist Session Manager Client Wire.
Import ListNotations.
Local Open Scope Z_scope.

(** src/net/arrow/mod.rs:52 *)
Definition CLOSE_TIMEOUT : Z := 20 * SEC.

(** Where `connect` is once the client has returned the end of its stream (src/net/arrow/mod.rs:705-717). [EFlushing]: `send_all`
    flushes the sink, it completes "once the sink has been flushed" (documentation of the futures crate), or fails; the watchdog is still
    asleep. [EClosing until]: `sink.close()` with its timeout. [EReturned t r]: `connect` returned [r] at time [t]. *)
Inductive ephase := EFlushing | EClosing (until : Z) | EReturned (t : Z) (r : cresult).

(** [n_result]: what `connect` returns in the end (src/net/arrow/mod.rs:719-721); [n_buf] and [n_wire]: the write buffer of the sink and
    the bytes written to the TLS stream. *)
Record ending := { n_result : cresult; n_phase : ephase; n_buf : bytes; n_wire : bytes }.

(** [ESent n t]: the stream takes up to [n] bytes of the buffer; [EBroken t]: writing or flushing fails; [EWatch t]: the watchdog
    wakes up and finds the context closed (src/net/arrow/mod.rs:598-606), so it ends without an error; [EShut t]: the stream is shut
    down, which needs an empty buffer; [ETimer t]: the timeout of the close is due. *)
Inductive eev := ESent (n : nat) (t : Z) | EBroken (t : Z) | EWatch (t : Z) | EShut (t : Z) | ETimer (t : Z).

Definition with_phase (s : ending) (p : ephase) : ending :=
  {| n_result := n_result s; n_phase := p; n_buf := n_buf s; n_wire := n_wire s |}.

(** src/net/arrow/mod.rs:705-721. The error of `send_all` is returned as it is (707), the end of the watchdog leads on to the close
    (710), errors and the timeout of the close are ignored (716-717). Events that do not fit the phase do nothing. *)
Definition ending_step (s : ending) (e : eev) : ending :=
  match n_phase s, e with
  | EFlushing, ESent n t =>
      let rest := skipn n (n_buf s) in
      {| n_result := n_result s; n_phase := match rest with [] => EClosing (t + CLOSE_TIMEOUT) | _ => EFlushing end;
         n_buf := rest; n_wire := n_wire s ++ firstn n (n_buf s) |}
  | EFlushing, EBroken t => with_phase s (EReturned t (Failed OtherError))
  | EFlushing, EWatch t => with_phase s (EClosing (t + CLOSE_TIMEOUT))
  | EClosing u, ESent n t =>
      {| n_result := n_result s; n_phase := EClosing u; n_buf := skipn n (n_buf s); n_wire := n_wire s ++ firstn n (n_buf s) |}
  | EClosing u, EBroken t => with_phase s (EReturned t (n_result s))
  | EClosing u, EShut t => match n_buf s with [] => with_phase s (EReturned t (n_result s)) | _ => s end
  | EClosing u, ETimer t => if Z.leb u t then with_phase s (EReturned t (n_result s)) else s
  | _, _ => s
  end.

Definition ending_run (s : ending) (es : list eev) : ending := fold_left ending_step es s.

(** The end of a connection at time [t]. The client ends its stream only when its context is closed; a connection that failed returns
    at once (src/net/arrow/mod.rs:706-709). [None]: the connection is up. *)
Definition ending_new (t : Z) (q : wconn) : option ending :=
  match k_result (q_conn q) with
  | None => None
  | Some r =>
      Some {| n_result := r; n_phase := if is_closed (k_ctx (q_conn q)) then EFlushing else EReturned t r;
              n_buf := q_buf q; n_wire := q_wire q |}
  end.
