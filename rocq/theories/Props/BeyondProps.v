(** Property C159: a server that goes beyond the window of the client.

    [data_in sid h]: the data that the server sent for session [sid] since it was opened; [confirmed sid h]: the bytes that the
    DATA_ACK messages of the client confirmed since then; [to_service sid h]: what was written to the service;
    [hang_up sid code m]: [m] is the HUP of the session with the error code, byte by byte. *)
From Coq Require Import NArith ZArith List Bool.
From Verif.Model Require Import Bytes Frame Service Control Session Manager Client.
From Verif.Spec Require Import ManagerSpec ClientSpec WireSpec FairSpec HangSpec WindowSpec.
From Verif.Proofs Require Import ClientPropsPf2 BeyondPf.
Import ListNotations.
Local Open Scope N_scope.

(** C159: a message that goes beyond the window ends its session: the server gets the HUP with the error code 3 after a bounded
    number of polls, and nothing is written to the service any more, not even what was accepted before. *)
Theorem C159_told :
  forall (t : Z) (i : identity) (v1 v2 : view) (es1 : list kev) (k1 : conn) (h1 : list cobs) (now : Z) (e : env) (m : amsg) (es2 : list kev)
         (k2 : conn) (h2 : list cobs) (sid : N) (s1 : sess),
    connection t i v1 v2 es1 = (k1, h1) -> conn_run k1 (KPoll [SMsg now e m] :: es2) = (k2, h2) -> k_result k2 = None -> Forall no_input es2 ->
    session k1 sid = Some s1 -> s_closed s1 = false -> control_has_no_address h1 -> short_ids h1 -> m_service m <> 0 -> m_session m = sid ->
    65536 + confirmed sid h1 < nlen (data_in sid h1 ++ m_payload m) ->
    (length (c_messages (k_ctx k1)) + length (g_queue (c_mgr (k_ctx k1))) + 3 * length (g_order (c_mgr (k_ctx k1)))
     + 2 * wakeups es2 <= client_polls es2)%nat ->
    (exists x, In (XSent x) h2 /\ hang_up sid 3 x) /\ to_service sid (h1 ++ h2) = to_service sid h1.
Proof. exact beyond_told. Qed.
Print Assumptions C159_told.

(** Nothing else suffers: the connection goes on, and every other open session stays open and keeps its data and its window. *)
Theorem C159_only :
  forall (t : Z) (i : identity) (v1 v2 : view) (es1 : list kev) (k1 : conn) (h1 : list cobs) (now : Z) (e : env) (m : amsg)
         (sid : N) (s1 : sess) (k2 : conn) (h2 : list cobs),
    connection t i v1 v2 es1 = (k1, h1) -> k_result k1 = None -> is_closed (k_ctx k1) = false -> c_established (k_ctx k1) = true ->
    session k1 sid = Some s1 -> s_closed s1 = false -> control_has_no_address h1 -> short_ids h1 -> m_service m <> 0 -> m_session m = sid ->
    65536 + confirmed sid h1 < nlen (data_in sid h1 ++ m_payload m) -> conn_step k1 (KPoll [SMsg now e m]) = (k2, h2) ->
    k_result k2 = None /\
    forall other s, other <> sid -> session k1 other = Some s -> s_closed s = false ->
      exists s', session k2 other = Some s' /\ s_closed s' = false /\ s_output s' = s_output s /\ s_outcap s <= s_outcap s'.
Proof. exact beyond_only. Qed.
Print Assumptions C159_only.

(** Sessions 7 and 8. Each has three bytes to write, of which one is written; then 65535 bytes come for session 7. *)
Definition data7 (sid : N) (p : bytes) : kev := KPoll [SMsg 3%Z (env0 view9) {| m_service := 5; m_session := sid; m_payload := p |}].
Definition start159 : list kev :=
  session_events 0 ++ [KPoll [SMsg 2%Z (env0 view9) (control_msg [0; 51; 0; 13; 0; 5; 0; 0; 0; 8])];
    KTransport 7 TConnected; KTransport 8 TConnected; data7 7 [1; 2; 3]; data7 8 [4; 5; 6];
    KTransport 7 (TPolled RdPending (WrOk 1)); KTransport 8 (TPolled RdPending (WrOk 1)); KPoll []].
Definition zeros159 : bytes := N.iter 65535 (cons 0) [].
Definition rest159 : list kev := KTransport 7 (TPolled RdPending (WrOk 2)) :: repeat (KPoll []) 7.
Example C159_case :
  let '(k1, h1) := connection 0%Z race_id view9 view9 start159 in
  let '(k2, h2) := conn_run k1 (data7 7 zeros159 :: rest159) in
  match session k1 7, session k2 8 with
  | Some s1, Some s2 =>
      forallb (fun x => match x with
                        | XRecv e _ => match v_get (e_table e) 0 with None => true | Some _ => false end
                        | XMgr (OOpen sid _ _ _) => sid <? 2 ^ 24
                        | _ => true
                        end) h1 = true /\
      k_result k2 = None /\ is_closed (k_ctx k1) = false /\ c_established (k_ctx k1) = true /\ s_closed s1 = false /\ s_outcap s1 = 65534 /\
      (65536 + confirmed 7 h1 <? nlen (data_in 7 h1 ++ zeros159)) = true /\
      (length (c_messages (k_ctx k1)) + length (g_queue (c_mgr (k_ctx k1))) + 3 * length (g_order (c_mgr (k_ctx k1)))
       + 2 * wakeups rest159 <=? client_polls rest159)%nat = true /\
      map m_payload (ClientSpec.sent h2) = [[0; 2; 0; 12; 0; 0; 0; 8; 0; 0; 0; 1]; [0; 3; 0; 5; 0; 0; 0; 7; 0; 0; 0; 3]] /\
      to_service 7 (h1 ++ h2) = [1] /\ s_closed s2 = false /\ s_output s2 = [5; 6]
  | _, _ => False
  end.
Proof. vm_compute. repeat split. Qed.
Example C159_case_quiet : Forall no_input rest159.
Proof. repeat constructor. Qed.
