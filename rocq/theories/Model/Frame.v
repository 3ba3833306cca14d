(** Arrow Protocol framing: header and message encoding/decoding and the framed reader. *)
From Coq Require Import NArith List Bool.
From Verif.Model Require Import Bytes.
Import ListNotations.
Local Open Scope N_scope.

(** src/net/arrow/proto/mod.rs:20 *)
Definition ARROW_PROTOCOL_VERSION : N := 2.

(** src/net/arrow/proto/msg/mod.rs:43-54, `ArrowMessageHeader` (packed, 1+2+4+4 bytes). *)
Record header := { h_version : N; h_service : N; h_session : N; h_size : N }.

(** `mem::size_of::<ArrowMessageHeader>()` *)
Definition HSIZE : nat := 11.

(** src/net/arrow/proto/msg/mod.rs:56-67, `ArrowMessageHeader::new`: the session ID is masked to 24 bits. *)
Definition header_new (service session size : N) : header :=
  {| h_version := ARROW_PROTOCOL_VERSION; h_service := service;
     h_session := N.land session 16777215; h_size := size |}.

(** src/net/arrow/proto/msg/mod.rs:69-80, `ArrowMessageHeader::encode`. *)
Definition header_encode (h : header) : bytes :=
  to_be 1 (h_version h) ++ to_be 2 (h_service h) ++ to_be 4 (h_session h) ++ to_be 4 (h_size h).

(** src/net/arrow/proto/msg/mod.rs:82-102, `ArrowMessageHeader::from_bytes`. The length assertion is
    the panic case; `Ok(None)` is never returned. *)
Definition header_from_bytes (b : bytes) : result header :=
  if negb (Nat.eqb (length b) HSIZE) then RPanic
  else
    let h := {| h_version := of_be (field b 0 1);
                h_service := of_be (field b 1 2);
                h_session := N.land (of_be (field b 3 4)) 16777215;
                h_size := of_be (field b 7 4) |} in
    if N.eqb (h_version h) ARROW_PROTOCOL_VERSION then ROk h else RErr.

(** src/net/arrow/proto/msg/mod.rs:109-142, `ArrowMessage`. The `version` and `size` header fields of
    a stored message are never read again (encode rebuilds them), so they are dropped here. *)
Record amsg := { m_service : N; m_session : N; m_payload : bytes }.

(** src/net/arrow/proto/msg/mod.rs:117-131, `ArrowMessage::new` (the body is already encoded). *)
Definition amsg_new (service session : N) (body : bytes) : amsg :=
  {| m_service := service; m_session := N.land session 16777215; m_payload := body |}.

(** src/net/arrow/proto/msg/mod.rs:150-162, `ArrowMessage::encode`: appends to the buffer; the length
    is cast with `as u32`. *)
Definition amsg_encode (m : amsg) : bytes :=
  header_encode (header_new (m_service m) (m_session m) (u32 (nlen (m_payload m)))) ++ m_payload m.

(** Result of a decoder working on a buffer: `Ok(None)`, `Err(_)`, panic, or `Ok(Some(_))` with the
    remaining buffer. In the first three cases the buffer is left as it was. *)
Inductive decoded (A : Type) : Type :=
| DMore
| DErr
| DPanic
| DMsg (a : A) (rest : bytes).
Arguments DMore {A}.
Arguments DErr {A}.
Arguments DPanic {A}.
Arguments DMsg {A} _ _.

(** src/net/arrow/proto/msg/mod.rs:164-189, `ArrowMessage::decode`; also `ArrowCodec::decode`
    (src/net/arrow/proto/codec.rs:50-57). *)
Definition amsg_decode (buf : bytes) : decoded amsg :=
  if Nat.ltb (length buf) HSIZE then DMore
  else
    match header_from_bytes (firstn HSIZE buf) with
    | RPanic => DPanic
    | RErr => DErr
    | ROk h =>
        let msize := (N.to_nat (h_size h) + HSIZE)%nat in
        if N.ltb (nlen buf) (h_size h + N.of_nat HSIZE) then DMore
        else
          let message := firstn msize buf in
          DMsg {| m_service := h_service h; m_session := h_session h; m_payload := skipn HSIZE message |}
               (skipn msize buf)
    end.

(** The framed reader that drives the codec (tokio_util `FramedRead`, used in
    src/net/arrow/mod.rs:671-722): received bytes are appended to the buffer and the codec is called
    until it asks for more; the first error ends the stream. *)
Inductive rstatus := RSOpen | RSFailed | RSPanicked | RSOutOfFuel.
Record reader := { rd_buf : bytes; rd_status : rstatus }.

Definition reader_init : reader := {| rd_buf := []; rd_status := RSOpen |}.

(** Call the decoder until it stops returning messages. *)
Fixpoint drain (fuel : nat) (buf : bytes) : list amsg * reader :=
  match fuel with
  | O => ([], {| rd_buf := buf; rd_status := RSOutOfFuel |})
  | S fuel' =>
      match amsg_decode buf with
      | DMore => ([], {| rd_buf := buf; rd_status := RSOpen |})
      | DErr => ([], {| rd_buf := buf; rd_status := RSFailed |})
      | DPanic => ([], {| rd_buf := buf; rd_status := RSPanicked |})
      | DMsg m rest => let '(ms, r) := drain fuel' rest in (m :: ms, r)
      end
  end.

(** One received chunk. After a failure nothing is decoded any more; the bytes that would have been
    read stay unread (they are appended to the unread bytes). *)
Definition feed (r : reader) (chunk : bytes) : list amsg * reader :=
  match rd_status r with
  | RSOpen => let buf := rd_buf r ++ chunk in drain (S (length buf)) buf
  | st => ([], {| rd_buf := rd_buf r ++ chunk; rd_status := st |})
  end.

(** A sequence of received chunks. *)
Fixpoint feed_all (r : reader) (chunks : list bytes) : list amsg * reader :=
  match chunks with
  | [] => ([], r)
  | c :: cs =>
      let '(ms, r') := feed r c in
      let '(ms', r'') := feed_all r' cs in
      (ms ++ ms', r'')
  end.
