(** What a connection looks like from the outside, read off its history. *)
From Coq Require Import NArith ZArith List Bool.
From Verif.Model Require Import Bytes Frame Service Control Session Manager Client.
From Verif.Spec Require Import ControlSpec ManagerSpec.
Import ListNotations.
Local Open Scope N_scope.

(** ** Reading server messages *)

(** An acknowledgement: message ID and error code. *)
Definition read_ack (m : amsg) : option (N * N) :=
  match m_payload m with
  | [a; b; x; y; c; d; e; f] =>
      if (m_service m =? 0) && (x =? 0) && (y =? 0)
      then Some (a * 256 + b, ((c * 256 + d) * 256 + e) * 256 + f) else None
  | _ => None
  end.

(** Requests that are answered, with their message ID. *)
Inductive request := AskPing (id : N) | AskStatus (id : N) | AskReport (id : N).
Definition read_request (m : amsg) : option request :=
  match m_payload m with
  | [a; b; x; y] =>
      if (m_service m =? 0) && (x =? 0) then
        if y =? 1 then Some (AskPing (a * 256 + b))
        else if y =? 8 then Some (AskStatus (a * 256 + b))
        else if y =? 10 then Some (AskReport (a * 256 + b))
        else None
      else None
  | _ => None
  end.

(** The server sent control message [cm]. *)
Definition server_says (m : amsg) (cm : cmsg) : Prop := m_service m = 0 /\ server_message (m_payload m) cm.

(** ** Reading histories *)
Definition received (h : list cobs) : list (env * amsg) :=
  flat_map (fun x => match x with XRecv e m => [(e, m)] | _ => [] end) h.
Definition sent (h : list cobs) : list amsg :=
  flat_map (fun x => match x with XSent m => [m] | _ => [] end) h.
Definition produced (h : list cobs) : list cmsg :=
  flat_map (fun x => match x with XQueue _ m => [m] | _ => [] end) h.
Definition commands (h : list cobs) : list command :=
  flat_map (fun x => match x with XCmd c => [c] | _ => [] end) h.
Definition manager_history (h : list cobs) : list mobs :=
  flat_map (fun x => match x with XMgr o => [o] | _ => [] end) h.

(** The REGISTER message has the first ID of the factory. *)
Definition REGISTER_ID : N := 0.

(** The REGISTER message of client [i] with the services of [v1]; the window is announced as 65535. *)
Definition reg_msg (i : identity) (v1 : view) : cmsg :=
  {| cm_id := REGISTER_ID; cm_type := 2;
     cm_body := BRegister (id_uuid i) (id_key i) (id_mac i) 65535 (if id_gateway i then 1 else 0) (id_info i)
                          (table_of_services (v_visible v1)) |}.

(** The client is registered: the first thing the server said was a positive ACK for REGISTER. *)
Definition registered (h : list cobs) : bool :=
  match received h with
  | (_, m) :: _ =>
      match read_ack m with
      | Some (id, code) => (id =? REGISTER_ID) && (code =? 0)
      | None => false
      end
  | [] => false
  end.

(** What may happen before registration. *)
Definition before_registration (reg : cmsg) (x : cobs) : Prop :=
  match x with
  | XRecv _ _ | XTick _ _ _ _ => True
  | XSent m => m = amsg_of_cmsg reg
  | _ => False
  end.

(** Meaning of the ACK codes of REGISTER. *)
Definition verdict (code : N) : ekind :=
  if code =? 1 then UnsupportedProtocolVersion
  else if code =? 2 then Unauthorized
  else if code =? 4294967295 then ArrowServerError
  else OtherError.

(** REGISTER (type 2) and PING (type 1) have to be acknowledged. *)
Definition needs_ack (m : cmsg) : bool := (cm_type m =? 2) || (cm_type m =? 1).

(** Outstanding acknowledgements (time of sending, message ID), oldest first. *)
Definition outstanding_step (acc : list (Z * N)) (x : cobs) : list (Z * N) :=
  match x with
  | XQueue t m => if needs_ack m then acc ++ [(t, cm_id m)] else acc
  | XRecv _ m => match read_ack m with Some _ => tl acc | None => acc end
  | _ => acc
  end.
Definition outstanding (h : list cobs) : list (Z * N) := fold_left outstanding_step h [].

(** Control messages waiting to be sent; [None] if something was sent ahead of them or out of order. *)
Definition waiting_step (acc : option (list amsg)) (x : cobs) : option (list amsg) :=
  match acc with
  | None => None
  | Some q =>
      match x with
      | XQueue _ m => Some (q ++ [amsg_of_cmsg m])
      | XSent m =>
          match q with
          | [] => Some []
          | m' :: q' =>
              if (m_service m =? m_service m') && (m_session m =? m_session m') && beq (m_payload m) (m_payload m')
              then Some q' else None
          end
      | _ => Some q
      end
  end.
Definition waiting (h : list cobs) : option (list amsg) := fold_left waiting_step h (Some []).

(** Time of the last PING; the time of connecting counts as one. *)
Definition last_ping (t0 : Z) (h : list cobs) : Z :=
  fold_left (fun acc x => match x with XQueue t m => if cm_type m =? 1 then t else acc | _ => acc end) h t0.

(** Time of the last check for a changed service table: the first tick of an established connection at
    least five seconds after the previous one. *)
Fixpoint last_check_from (lc : Z) (pre h : list cobs) : Z :=
  match h with
  | [] => lc
  | x :: h' =>
      let lc' := match x with
                 | XTick t _ _ _ => if registered pre && (5 * SEC <=? t - lc)%Z then t else lc
                 | _ => lc
                 end in
      last_check_from lc' (pre ++ [x]) h'
  end.
Definition last_check (t0 : Z) (h : list cobs) : Z := last_check_from t0 [] h.

(** The view of the service table that was announced last: the view at the start (REGISTER) or the
    view of the tick that produced the last UPDATE. *)
Definition announced_step (acc : view * view) (x : cobs) : view * view :=
  match x with
  | XTick _ _ v _ => (v, snd acc)
  | XQueue _ m => if cm_type m =? 4 then (fst acc, fst acc) else acc
  | _ => acc
  end.
Definition announced (v : view) (h : list cobs) : view := snd (fold_left announced_step h (v, v)).

Definition is_update (x : cobs) : bool :=
  match x with XQueue _ m => cm_type m =? 4 | _ => false end.
Definition is_ping (x : cobs) : bool :=
  match x with XQueue _ m => cm_type m =? 1 | _ => false end.

(** The three reads of the table within one tick see the same table. *)
Definition atomic_tick (x : cobs) : Prop :=
  match x with XTick _ v0 v1 v2 => v0 = v1 /\ v1 = v2 | _ => True end.

(** Clock readings in a history; they never decrease if the clock is monotonic. *)
Definition history_times (h : list cobs) : list Z :=
  flat_map (fun x => match x with XQueue t _ => [t] | XTick t _ _ _ => [t] | _ => [] end) h.
Fixpoint ascending (t : Z) (l : list Z) : Prop :=
  match l with [] => True | x :: l' => (t <= x)%Z /\ ascending x l' end.

(** Ticks only: their times, and no two consecutive ones further apart than [d]. *)
Definition ticks (es : list kev) : list Z :=
  flat_map (fun e => match e with KTick t _ _ _ => [t] | _ => [] end) es.
Fixpoint paced (d t : Z) (l : list Z) : Prop :=
  match l with [] => True | x :: l' => (t <= x <= t + d)%Z /\ paced d x l' end.
(** The server is silent. *)
Definition no_input (e : kev) : Prop := match e with KPoll (_ :: _) => False | _ => True end.

(** ** Requests and answers *)

(** Requests received after registration, with the history before them. *)
Fixpoint asked_from (pre h : list cobs) : list (list cobs * env * request) :=
  match h with
  | [] => []
  | x :: h' =>
      match x with
      | XRecv e m =>
          match read_request m with
          | Some r => if registered pre then [(pre, e, r)] else []
          | None => []
          end
      | _ => []
      end ++ asked_from (pre ++ [x]) h'
  end.
Definition asked (h : list cobs) : list (list cobs * env * request) := asked_from [] h.

(** Answers: ACK (0), STATUS (9) and SCAN_REPORT (11) messages produced. *)
Definition answers (h : list cobs) : list cmsg :=
  filter (fun m => (cm_type m =? 0) || (cm_type m =? 9) || (cm_type m =? 11)) (produced h).

(** The number of sessions alive. *)
Definition sessions_alive (h : list cobs) (n : nat) : Prop :=
  exists l, NoDup l /\ length l = n /\ forall sid, In sid l <-> life sid (manager_history h) = Some true.

Definition answer (q : list cobs * env * request) (m : cmsg) : Prop :=
  let '(pre, e, r) := q in
  match r with
  | AskPing id => m = {| cm_id := id; cm_type := 0; cm_body := BAck 0 |}
  | AskStatus id =>
      exists n new, sessions_alive pre n /\
        m = {| cm_id := new; cm_type := 9;
               cm_body := BStatus id (if e_scanning e then 1 else 0) (N.of_nat n mod 2 ^ 32) |}
  | AskReport id =>
      exists new, m = {| cm_id := new; cm_type := 11;
                         cm_body := BScanReport id (e_hosts e) (scan_report_services (e_get_id e) (e_services e)) |}
  end.

(** Everything received is a sequence of bytes. *)
Definition bytes_received (h : list cobs) : Prop := forall e m, In (XRecv e m) h -> wf_bytes (m_payload m).

(** The commands behind control messages 6 and 7. *)
Definition command_code (c : command) : N := match c with ResetServiceTable => 6 | ScanNetwork => 7 end.

(** Whoever reads the table within the event sees view [v]. *)
Definition only_sees (v : view) (e : kev) : Prop :=
  match e with KTick _ v0 v1 v2 => v0 = v /\ v1 = v /\ v2 = v | _ => True end.
