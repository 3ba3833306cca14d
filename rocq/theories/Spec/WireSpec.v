(** What goes over the wire of a connection, and through a session from end to end. *)
From Coq Require Import NArith ZArith List Bool.
From Verif.Model Require Import Bytes Frame Service Control Session Manager Client Wire.
From Verif.Spec Require Import FrameSpec SessionSpec ManagerSpec ClientSpec.
Import ListNotations.
Local Open Scope N_scope.

(** The bytes that have arrived from the server. *)
Definition arrived (es : list wev) : bytes :=
  flat_map (fun e => match e with WArrive (SData b) => b | _ => [] end) es.

(** [reads b ms rest]: the bytes [b] begin with the frames [ms]; [rest] follows. *)
Inductive reads : bytes -> list amsg -> bytes -> Prop :=
| reads_none (b : bytes) : reads b [] b
| reads_frame (b : bytes) (m : amsg) (r : bytes) (ms : list amsg) (rest : bytes) :
    frame_reading b = DMsg m r -> reads r ms rest -> reads b (m :: ms) rest.

(** The payloads of the data messages received for session [sid] since it was opened, and the bytes written
    to its service. *)
Definition data_in_step (sid : N) (acc : bytes) (x : cobs) : bytes :=
  match x with
  | XMgr (OOpen s _ _ _) => if N.eqb s sid then [] else acc
  | XRecv _ m => if negb (N.eqb (m_service m) 0) && N.eqb (m_session m) sid then acc ++ m_payload m else acc
  | _ => acc
  end.
Definition data_in (sid : N) (h : list cobs) : bytes := fold_left (data_in_step sid) h [].

Definition to_service_step (sid : N) (acc : bytes) (x : cobs) : bytes :=
  match x with
  | XMgr (OOpen s _ _ _) => if N.eqb s sid then [] else acc
  | XMgr (OSess s _ o) => if N.eqb s sid then acc ++ written o else acc
  | _ => acc
  end.
Definition to_service (sid : N) (h : list cobs) : bytes := fold_left (to_service_step sid) h [].

(** The bytes read from the service of session [sid] since it was opened, and the payloads of the data
    messages sent for it. *)
Definition from_service_step (sid : N) (acc : bytes) (x : cobs) : bytes :=
  match x with
  | XMgr (OOpen s _ _ _) => if N.eqb s sid then [] else acc
  | XMgr (OSess s _ o) => if N.eqb s sid then acc ++ read_in o else acc
  | _ => acc
  end.
Definition from_service (sid : N) (h : list cobs) : bytes := fold_left (from_service_step sid) h [].

Definition data_out_step (sid : N) (acc : bytes) (x : cobs) : bytes :=
  match x with
  | XMgr (OOpen s _ _ _) => if N.eqb s sid then [] else acc
  | XSent m => if negb (N.eqb (m_service m) 0) && N.eqb (m_session m) sid then acc ++ m_payload m else acc
  | _ => acc
  end.
Definition data_out (sid : N) (h : list cobs) : bytes := fold_left (data_out_step sid) h [].

(** The session is alive. *)
Definition session (k : conn) (sid : N) : option sess := find_sess (c_mgr (k_ctx k)) sid.

(** Service 0 is the control protocol and has no address in any table. *)
Definition control_has_no_address (h : list cobs) : Prop :=
  forall e m s, In (XRecv e m) h -> v_get (e_table e) 0 = Some s -> s_addr s = None.

(** The server uses session IDs of 24 bits. *)
Definition short_ids (h : list cobs) : Prop :=
  forall sid t mac a, In (XMgr (OOpen sid t mac a)) h -> sid < 2 ^ 24.

Definition starts_with_bytes (b a : bytes) : Prop := exists c, b = a ++ c.

(** Reads that return bytes: neither the end of the stream nor an error. *)
Definition plain (r : sread) : Prop := match r with SData (_ :: _) => True | _ => False end.
Definition only_data (e : wev) : Prop := match e with WArrive r => plain r | _ => True end.

(** What [n] calls of `poll_next` return, the socket delivering [sock]. *)
Fixpoint nexts (n : nat) (w : framed) (sock : list sread) : list fnext :=
  match n with
  | O => []
  | S n => let '(x, w', sock') := framed_next w sock in x :: nexts n w' sock'
  end.
