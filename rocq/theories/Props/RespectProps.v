(** Property C158: a server that respects the window of the client.

    [data_in sid h]: the data that the server sent for session [sid] since it was opened; [confirmed sid h]: the bytes that the
    DATA_ACK messages of the client confirmed since then; [to_service sid h]: what was written to the service;
    [respectful sid h]: with no message the server went more than 65536 bytes beyond what was confirmed before;
    [ends_session]: the events by which the service, its connection or a HUP of the server ends a session. *)
From Coq Require Import NArith ZArith List Bool.
From Verif.Model Require Import Bytes Frame Service Control Session Manager Client.
From Verif.Spec Require Import ManagerSpec ClientSpec WireSpec WindowSpec.
From Verif.Proofs Require Import ClientPropsPf2 ConfirmPf RespectPf.
Import ListNotations.
Local Open Scope N_scope.

(** C158: the room of an open session is exactly what the messages on the wire say it is, *)
Theorem C158_room :
  forall (t : Z) (i : identity) (v1 v2 : view) (es : list kev) (k : conn) (h : list cobs) (sid : N) (s : sess),
    connection t i v1 v2 es = (k, h) -> k_result k = None -> session k sid = Some s -> s_closed s = false ->
    control_has_no_address h -> short_ids h ->
    nlen (data_in sid h) + s_outcap s = 65536 + confirmed sid h.
Proof. exact room. Qed.
Print Assumptions C158_room.

(** so each message of a server that respects it is accepted as a whole, unless the session was ended before; *)
Theorem C158_accepted :
  forall (t : Z) (i : identity) (v1 v2 : view) (es : list kev) (k : conn) (h h1 : list cobs) (sid : N) (p : bytes) (so : list sobs) (h2 : list cobs),
    connection t i v1 v2 es = (k, h) -> control_has_no_address h -> short_ids h -> respectful sid h ->
    h = h1 ++ XMgr (OSess sid (EPush p) so) :: h2 -> existsb ends_session (map fst (since_open sid (manager_history h1))) = false ->
    so = [Accepted p].
Proof. exact accepted_all. Qed.
Print Assumptions C158_accepted.

(** the session stays open, and all that the server sent is written to the service or waits to be written. *)
Theorem C158_open :
  forall (t : Z) (i : identity) (v1 v2 : view) (es : list kev) (k : conn) (h : list cobs) (sid : N) (s : sess),
    connection t i v1 v2 es = (k, h) -> k_result k = None -> session k sid = Some s ->
    control_has_no_address h -> short_ids h -> respectful sid h -> existsb ends_session (map fst (since_open sid (manager_history h))) = false ->
    s_closed s = false /\ data_in sid h = to_service sid h ++ s_output s.
Proof. exact open_and_kept. Qed.
Print Assumptions C158_open.

(** Conversely no byte of a message that goes beyond the window is accepted. *)
Theorem C158_rejected :
  forall (t : Z) (i : identity) (v1 v2 : view) (es : list kev) (k : conn) (h h1 : list cobs) (e : env) (m : amsg) (sid : N) (p : bytes)
         (so : list sobs) (h2 : list cobs),
    connection t i v1 v2 es = (k, h) -> control_has_no_address h -> short_ids h ->
    h = h1 ++ XRecv e m :: XMgr (OSess sid (EPush p) so) :: h2 ->
    65536 + confirmed sid h1 < nlen (data_in sid (h1 ++ [XRecv e m])) -> so = [].
Proof. exact rejected. Qed.
Print Assumptions C158_rejected.

(** The server sends three bytes; two are written and confirmed; the server sends two more. *)
Definition respect_events : list kev :=
  session_events 0 ++ [KTransport 7 TConnected;
    KPoll [SMsg 3%Z (env0 view9) {| m_service := 5; m_session := 7; m_payload := [1; 2; 3] |}];
    KTransport 7 (TPolled RdPending (WrOk 2)); KPoll []; KPoll []; KPoll []; KPoll []; KPoll [];
    KPoll [SMsg 3%Z (env0 view9) {| m_service := 5; m_session := 7; m_payload := [4; 5] |}]].
(** [respectful] as a check *)
Fixpoint respects (sid : N) (before : list cobs) (h : list cobs) : bool :=
  match h with
  | [] => true
  | x :: h' =>
      match x with
      | XRecv _ m => if negb (m_service m =? 0) && (m_session m =? sid) then nlen (data_in sid (before ++ [x])) <=? 65536 + confirmed sid before else true
      | _ => true
      end && respects sid (before ++ [x]) h'
  end.
Example C158_case :
  let '(k, h) := connection 0%Z race_id view9 view9 respect_events in
  match session k 7 with
  | Some s =>
      forallb (fun x => match x with
                        | XRecv e _ => match v_get (e_table e) 0 with None => true | Some _ => false end
                        | XMgr (OOpen sid _ _ _) => sid <? 2 ^ 24
                        | _ => true
                        end) h = true /\
      k_result k = None /\ respects 7 [] h = true /\ existsb ends_session (map fst (since_open 7 (manager_history h))) = false /\
      confirmed 7 h = 2 /\ data_in 7 h = [1; 2; 3; 4; 5] /\ to_service 7 h = [1; 2] /\ s_output s = [3; 4; 5] /\ s_outcap s = 65533
  | None => False
  end.
Proof. vm_compute. repeat split. Qed.

(** A message of 65537 zeros is beyond the window; the session ends. *)
Definition too_long : bytes := N.iter 65537 (cons 0) [].
Definition beyond_events : list kev :=
  session_events 0 ++ [KTransport 7 TConnected; KPoll [SMsg 3%Z (env0 view9) {| m_service := 5; m_session := 7; m_payload := too_long |}]].
Example C158_beyond :
  let '(k, h) := connection 0%Z race_id view9 view9 beyond_events in
  existsb (fun x => match x with XMgr (OSess 7 (EPush p) []) => nlen p =? 65537 | _ => false end) h = true /\
  nlen (data_in 7 h) = 65537 /\ confirmed 7 h = 0 /\ k_result k = None /\ session k 7 = None.
Proof. vm_compute. repeat split. Qed.
