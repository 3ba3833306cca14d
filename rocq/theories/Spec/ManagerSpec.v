(** What the life of a session looks like in the history of the session manager. *)
From Coq Require Import NArith List Bool.
From Verif.Model Require Import Bytes Frame Service Control Alist Session Manager.
Import ListNotations.
Local Open Scope N_scope.

(** Life of a session ID: [None] once the history breaks the rules, otherwise whether a session with
    this ID is alive. A session is opened only when none is alive. Its messages occur only while it is
    alive. It ends exactly once: by its final message or by removal. *)
Definition life_step (sid : N) (st : option bool) (x : mobs) : option bool :=
  match st with
  | None => None
  | Some live =>
      match x with
      | OOpen s _ _ _ => if N.eqb s sid then (if live then None else Some true) else Some live
      | OSess s _ _ | OMsg (FromSession s) _ => if N.eqb s sid then (if live then Some true else None) else Some live
      | OMsg (EndOf s _) _ | ORemoved s => if N.eqb s sid then (if live then Some false else None) else Some live
      | _ => Some live
      end
  end.
Definition life (sid : N) (h : list mobs) : option bool := fold_left (life_step sid) h (Some false).

(** Events and effects of the current session with this ID: everything since its last opening. *)
Definition since_step (sid : N) (acc : list (sev * list sobs)) (x : mobs) : list (sev * list sobs) :=
  match x with
  | OOpen s _ _ _ => if N.eqb s sid then [] else acc
  | OSess s e o => if N.eqb s sid then acc ++ [(e, o)] else acc
  | _ => acc
  end.
Definition since_open (sid : N) (h : list mobs) : list (sev * list sobs) := fold_left (since_step sid) h [].

(** Messages handed over in a history, and messages put into the queue. *)
Definition returned (h : list mobs) : nat :=
  length (filter (fun x => match x with OMsg _ _ => true | _ => false end) h).
Definition queued (h : list mobs) : nat :=
  length (filter (fun x => match x with OQueued _ => true | _ => false end) h).
Definition polls (es : list mev) : nat :=
  length (filter (fun e => match e with MPoll => true | _ => false end) es).

(** A message of session [sid] (data, acknowledgement or its end). *)
Definition message_of (sid : N) (x : mobs) : bool :=
  match x with
  | OMsg (FromSession s) _ => N.eqb s sid
  | OMsg (EndOf s _) _ => N.eqb s sid
  | _ => false
  end.

(** The session the event is addressed to. *)
Definition addressee (e : mev) : option N :=
  match e with
  | MConnect _ _ sid => Some sid
  | MSend m => Some (m_session m)
  | MClose sid => Some sid
  | MDataAck sid _ => Some sid
  | MPoll => None
  | MTransport sid _ => Some sid
  | MIds _ => None
  end.

(** The session has something to report: an acknowledgement, data within the window, or its end. *)
Definition has_report (s : sess) : Prop :=
  0 < s_written s \/ (s_input s <> [] /\ 0 < s_incap s) \/ s_closed s = true.

(** Position of the first occurrence (the length if there is none). *)
Fixpoint position (sid : N) (l : list N) : nat :=
  match l with
  | [] => O
  | x :: l' => if N.eqb x sid then O else S (position sid l')
  end.

(** Total of the acknowledgements for one session. *)
Definition acks_for (sid : N) (es : list mev) : N :=
  fold_right (fun e acc => match e with MDataAck k n => if N.eqb k sid then n else 0 | _ => 0 end + acc) 0 es.

(** The service closed its connection. *)
Definition is_eof (e : sev) : Prop := exists w, e = ETransport (RdData []) w.

(** The event breaks a session in state [s]: failed connection, socket error, more data than the
    session has capacity for. *)
Definition failure (s : sess) (e : sev) : Prop :=
  match e with
  | EConnectFailed => True
  | ETransport RdErr _ => True
  | ETransport _ WrErr => True
  | EPush p => s_outcap s < nlen p
  | _ => False
  end.

(** 127.0.0.0/8 and ::1 *)
Definition loopback (i : ip) : Prop :=
  match i with
  | V4 a => 2130706432 <= a < 2147483648
  | V6 a => a = 1
  end.

(** No CONNECT for a session ID that is not in use but still waits in the polling order. *)
Fixpoint no_stale_reuse (g : mgr) (es : list mev) : Prop :=
  match es with
  | [] => True
  | e :: es' =>
      match e with
      | MConnect _ _ sid => find_sess g sid = None -> ~ In sid (g_order g)
      | _ => True
      end /\ no_stale_reuse (fst (mgr_step g e)) es'
  end.
