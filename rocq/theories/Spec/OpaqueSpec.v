(** Other data in the sessions of a connection. [f n] says what each byte of session [n] is replaced by. Everything else - the
    lengths, the control messages, the times, what the sockets do - stays. *)
From Coq Require Import NArith ZArith List Bool.
From Verif.Model Require Import Bytes Frame Service Control Session Manager Client.
Import ListNotations.
Local Open Scope N_scope.

Section Renaming.
  Variable f : N -> N -> N.
  (** The wire has 24 bits for a session. *)
  Definition own (sid : N) (b : bytes) : bytes := map (f (sid mod 2 ^ 24)) b.

  Definition ren_msg (m : amsg) : amsg :=
    if m_service m =? 0 then m
    else {| m_service := m_service m; m_session := m_session m; m_payload := own (m_session m) (m_payload m) |}.
  Definition ren_rd (sid : N) (r : rd) : rd := match r with RdData b => RdData (own sid b) | _ => r end.
  Definition ren_sobs (sid : N) (o : sobs) : sobs :=
    match o with
    | Accepted b => Accepted (own sid b)
    | Wrote b => Wrote (own sid b)
    | ReadIn b => ReadIn (own sid b)
    | SentData m => SentData {| m_service := m_service m; m_session := m_session m; m_payload := own sid (m_payload m) |}
    | SentAck m => SentAck m
    end.
  Definition ren_sev (sid : N) (e : sev) : sev :=
    match e with
    | EPush b => EPush (own sid b)
    | ETransport r w => ETransport (ren_rd sid r) w
    | _ => e
    end.
  Definition ren_mobs (o : mobs) : mobs :=
    match o with
    | OSess sid e l => OSess sid (ren_sev sid e) (map (ren_sobs sid) l)
    | OQueued m => OQueued (ren_msg m)
    | OMsg from m => OMsg from (ren_msg m)
    | _ => o
    end.
  Definition ren_cobs (o : cobs) : cobs :=
    match o with
    | XRecv e m => XRecv e (ren_msg m)
    | XMgr o => XMgr (ren_mobs o)
    | XSent m => XSent (ren_msg m)
    | _ => o
    end.
  Definition ren_tev (sid : N) (e : tev) : tev := match e with TPolled r w => TPolled (ren_rd sid r) w | _ => e end.
  Definition ren_item (i : sitem) : sitem := match i with SMsg t e m => SMsg t e (ren_msg m) | _ => i end.
  Definition ren_kev (e : kev) : kev :=
    match e with
    | KPoll items => KPoll (map ren_item items)
    | KTransport sid te => KTransport sid (ren_tev sid te)
    | _ => e
    end.
  Definition ren_mev (e : mev) : mev :=
    match e with
    | MSend m => MSend (ren_msg m)
    | MTransport sid te => MTransport sid (ren_tev sid te)
    | _ => e
    end.
End Renaming.

(** The control service has no address. *)
Definition plain_table (v : view) : Prop := forall s, v_get v 0 = Some s -> s_addr s = None.
Definition plain_item (i : sitem) : Prop := match i with SMsg _ e _ => plain_table (e_table e) | _ => True end.
Definition plain_event (e : kev) : Prop := match e with KPoll items => Forall plain_item items | _ => True end.
(** What the session manager is given: the control messages go elsewhere. *)
Definition plain_mev (e : mev) : Prop :=
  match e with
  | MConnect get _ _ => forall s, get 0 = Some s -> s_addr s = None
  | MSend m => m_service m <> 0
  | _ => True
  end.

(** The effects that show data of session [n] *)
Definition about_msg (n : N) (m : amsg) : bool := negb (m_service m =? 0) && (m_session m mod 2 ^ 24 =? n).
Definition about (n : N) (o : cobs) : bool :=
  match o with
  | XRecv _ m => about_msg n m
  | XMgr (OSess sid _ _) => sid mod 2 ^ 24 =? n
  | XMgr (OMsg _ m) => about_msg n m
  | XSent m => about_msg n m
  | _ => false
  end.
