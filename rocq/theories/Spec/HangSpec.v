(** C146: how the server learns of the end of a session. *)
From Coq Require Import NArith List Bool.
From Verif.Model Require Import Bytes Frame Control Session Manager Client.
From Verif.Spec Require Import ManagerSpec ClientSpec WireSpec FairSpec.
Import ListNotations.
Local Open Scope N_scope.

(** The hang-up of a session, byte by byte. *)
Definition hang_up (sid code : N) (m : amsg) : Prop :=
  m_service m = 0 /\ m_session m = 0 /\
  exists a b, m_payload m = [a; b; 0; 5; 0; sid / 65536 mod 256; sid / 256 mod 256; sid mod 256; 0; 0; 0; code].

(** Data of a session. *)
Definition data_of (svc sid : N) (data : bytes) (m : amsg) : Prop :=
  m_service m = svc /\ m_session m = sid mod 2 ^ 24 /\ m_payload m = data.

(** The first message is sent before the second one. *)
Definition sent_before (m1 m2 : amsg) (h : list cobs) : Prop := exists a b c, h = a ++ XSent m1 :: b ++ XSent m2 :: c.

(** Messages of an ended session before its hang-up: an acknowledgement and data, if there are any. *)
Definition last_words (s : sess) : nat :=
  ((if 0 <? s_written s then 1 else 0) + match s_input s with [] => 0 | _ => if 0 <? s_incap s then 1 else 0 end)%nat.

(** Messages ahead of the hang-up of session [sid]: control messages, rejections, one message of every session scheduled
    before it, and a whole round for each of its last words. *)
Definition before_end (k : conn) (sid : N) (s : sess) : nat :=
  (length (c_messages (k_ctx k)) + length (g_queue (c_mgr (k_ctx k))) + position sid (g_order (c_mgr (k_ctx k)))
   + last_words s * length (g_order (c_mgr (k_ctx k))))%nat.

(** Events that end a session and the code its hang-up has: the service closes the connection, reading from it or writing
    to it fails, or no connection to it can be made. *)
Inductive ended_by (s : sess) : tev -> N -> Prop :=
| by_closed w : s_phase s = TRunning -> nlen (s_input s) < 8192 -> ended_by s (TPolled (RdData []) w) 0
| by_read w : s_phase s = TRunning -> nlen (s_input s) < 8192 -> ended_by s (TPolled RdErr w) 3
| by_write : s_phase s = TRunning -> s_output s <> [] -> ended_by s (TPolled RdPending WrErr) 3
| by_connect : s_phase s = TConnecting -> ended_by s TConnectFailed 3.
