(** The window of the server, as the server sees it. *)
From Coq Require Import NArith List Bool.
From Verif.Model Require Import Bytes Frame Session Manager Client.
From Verif.Spec Require Import WireSpec.
Import ListNotations.
Local Open Scope N_scope.

Definition big4 (a b c d : N) : N := ((a * 256 + b) * 256 + c) * 256 + d.
(** A DATA_ACK of the server: two bytes of the message ID, the type 12, the session and the number of bytes *)
Definition ack_in (m : amsg) : option (N * N) :=
  if m_service m =? 0 then
    match m_payload m with
    | [_; _; y; z; a; b; c; d; e; f; g; h] => if (y =? 0) && (z =? 12) then Some (big4 a b c d, big4 e f g h) else None
    | _ => None
    end
  else None.
(** The bytes that the server acknowledged for session [sid] since it was opened *)
Definition acknowledged_step (sid acc : N) (x : cobs) : N :=
  match x with
  | XMgr (OOpen s _ _ _) => if s =? sid then 0 else acc
  | XRecv _ m => match ack_in m with Some (s, n) => if s =? sid then acc + n else acc | None => acc end
  | _ => acc
  end.
Definition acknowledged (sid : N) (h : list cobs) : N := fold_left (acknowledged_step sid) h 0.
(** The bytes that the DATA_ACK messages sent by the client confirmed for session [sid] since it was opened *)
Definition confirmed_step (sid acc : N) (x : cobs) : N :=
  match x with
  | XMgr (OOpen s _ _ _) => if s =? sid then 0 else acc
  | XSent m => match ack_in m with Some (s, n) => if s =? sid then acc + n else acc | None => acc end
  | _ => acc
  end.
Definition confirmed (sid : N) (h : list cobs) : N := fold_left (confirmed_step sid) h 0.
(** The server never sends more for session [sid] than 65536 bytes beyond what was confirmed before. *)
Definition respectful (sid : N) (h : list cobs) : Prop :=
  forall h1 e m h2, h = h1 ++ XRecv e m :: h2 -> m_service m <> 0 -> m_session m = sid ->
    nlen (data_in sid (h1 ++ [XRecv e m])) <= 65536 + confirmed sid h1.
(** The service or the server ends the session: no connection, end of the stream, I/O errors, HUP *)
Definition ends_session (e : sev) : bool :=
  match e with
  | EClose | EConnectFailed => true
  | ETransport RdErr _ | ETransport (RdData []) _ | ETransport _ WrErr => true
  | _ => false
  end.
