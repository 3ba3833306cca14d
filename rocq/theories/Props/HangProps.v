(** C146: the server is told of the end of a session. *)
From Coq Require Import NArith ZArith List Bool Lia.
From Verif.Model Require Import Bytes Frame Service Control Session Manager Client.
From Verif.Spec Require Import ManagerSpec ClientSpec WireSpec FairSpec HangSpec.
From Verif.Proofs Require Import ClientPropsPf2 HangPf.
Import ListNotations.
Local Open Scope N_scope.

(** A session has ended and the server sends nothing. If the client is polled more often than messages are ahead of the
    hang-up, counting two for each wake-up of the watchdog, the server gets the hang-up with the code of the end, and
    before it the data that waited in the session, as far as the window allows. *)
Theorem C146_told :
  forall (t : Z) (i : identity) (v1 v2 : view) (es1 : list kev) (k1 : conn) (h1 : list cobs) (es2 : list kev) (k2 : conn)
         (h2 : list cobs) (sid : N) (s1 : sess),
    connection t i v1 v2 es1 = (k1, h1) -> conn_run k1 es2 = (k2, h2) -> k_result k2 = None -> Forall no_input es2 ->
    session k1 sid = Some s1 -> s_closed s1 = true -> (before_end k1 sid s1 + 2 * wakeups es2 < client_polls es2)%nat ->
    exists m, In (XSent m) h2 /\ hang_up sid (if s_error s1 then 3 else 0) m /\
      (s_input s1 <> [] -> 0 < s_incap s1 ->
       exists d, data_of (s_service s1) sid (firstn (N.to_nat (s_incap s1)) (s_input s1)) d /\ sent_before d m h2).
Proof. exact told_sent. Qed.
Print Assumptions C146_told.

(** A session is open and its service closes the connection, the connection fails, or none can be made: the server gets
    the hang-up with the code for it, after three rounds of the sessions at the latest. *)
Theorem C146_ended :
  forall (t : Z) (i : identity) (v1 v2 : view) (es1 : list kev) (k1 : conn) (h1 : list cobs) (es2 : list kev) (k2 : conn)
         (h2 : list cobs) (sid : N) (s1 : sess) (te : tev) (code : N),
    connection t i v1 v2 es1 = (k1, h1) -> conn_run k1 (KTransport sid te :: es2) = (k2, h2) -> k_result k2 = None ->
    Forall no_input es2 -> session k1 sid = Some s1 -> s_closed s1 = false -> ended_by s1 te code ->
    (length (c_messages (k_ctx k1)) + length (g_queue (c_mgr (k_ctx k1))) + 3 * length (g_order (c_mgr (k_ctx k1)))
     + 2 * wakeups es2 < client_polls es2)%nat ->
    exists m, In (XSent m) h2 /\ hang_up sid code m.
Proof. exact ending_told. Qed.
Print Assumptions C146_ended.

(** Three bytes for the service of which one is written, three bytes from it; then it closes the connection. *)
Definition start146 : list kev :=
  session_events 0 ++ [KTransport 7 TConnected;
    KPoll [SMsg 3%Z (env0 view9) {| m_service := 5; m_session := 7; m_payload := [1; 2; 3] |}];
    KTransport 7 (TPolled (RdData [7; 8; 9]) (WrOk 1))].
Definition close146 : tev := TPolled (RdData []) WrPending.
Definition rest146 : list kev := [KPoll []; KTick 100000000000%Z view9 view9 view9; KPoll []; KPoll []; KPoll []; KPoll []; KPoll []].
Example C146_case :
  let '(k1, h1) := connection 0%Z race_id view9 view9 start146 in
  let '(k2, h2) := conn_run k1 (KTransport 7 close146 :: rest146) in
  match session k1 7 with
  | Some s1 =>
      k_result k2 = None /\ Forall no_input rest146 /\ s_closed s1 = false /\ s_phase s1 = TRunning /\ s_input s1 = [7; 8; 9] /\
      (length (c_messages (k_ctx k1)) + length (g_queue (c_mgr (k_ctx k1))) + 3 * length (g_order (c_mgr (k_ctx k1)))
       + 2 * wakeups rest146)%nat = 5%nat /\ client_polls rest146 = 6%nat /\
      map m_payload (ClientSpec.sent h2) =
        [[0; 1; 0; 12; 0; 0; 0; 7; 0; 0; 0; 1]; [0; 2; 0; 1]; [7; 8; 9]; [0; 3; 0; 5; 0; 0; 0; 7; 0; 0; 0; 0]]
  | None => False
  end.
Proof. vm_compute. repeat split; repeat constructor. Qed.
