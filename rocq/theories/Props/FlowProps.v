(** C141: what a service sent reaches a server that keeps silent. *)
From Coq Require Import NArith ZArith List Bool Lia.
From Verif.Model Require Import Bytes Frame Service Control Session Manager Client.
From Verif.Spec Require Import ManagerSpec ClientSpec WireSpec FairSpec FlowSpec.
From Verif.Proofs Require Import ClientPropsPf2 FlowPf.
Import ListNotations.
Local Open Scope N_scope.

(** A connection did [es1] and goes on with [es2], in which the server sends nothing. If the client is polled more
    often than messages are ahead of the data of a session, counting two for each wake-up of the watchdog, then all
    the data that waited in the session is sent, as far as the window of the server allows. The conditions on the
    history are those of C112, which is about the same data. *)
Theorem C141_flow :
  forall (t : Z) (i : identity) (v1 v2 : view) (es1 : list kev) (k1 : conn) (h1 : list cobs) (es2 : list kev) (k2 : conn)
         (h2 : list cobs) (sid : N) (s1 s2 : sess),
    connection t i v1 v2 es1 = (k1, h1) -> conn_run k1 es2 = (k2, h2) -> k_result k2 = None ->
    control_has_no_address h1 -> short_ids h1 -> Forall no_input es2 ->
    session k1 sid = Some s1 -> session k2 sid = Some s2 -> (ahead k1 sid s1 + 2 * wakeups es2 < client_polls es2)%nat ->
    starts_with_bytes (data_out sid (h1 ++ h2)) (data_out sid h1 ++ firstn (N.to_nat (s_incap s1)) (s_input s1)).
Proof. exact flow. Qed.
Print Assumptions C141_flow.

(** Three bytes of the service wait behind the acknowledgements of three bytes for it, of which two are not written
    yet; the watchdog puts a PING in between. *)
Definition flow_start : list kev :=
  session_events 0 ++ [KTransport 7 TConnected;
    KPoll [SMsg 3%Z (env0 view9) {| m_service := 5; m_session := 7; m_payload := [1; 2; 3] |}];
    KTransport 7 (TPolled (RdData [7; 8; 9]) (WrOk 1))].
Definition flow_rest : list kev :=
  [KPoll []; KTransport 7 (TPolled RdPending (WrOk 1)); KPoll []; KTick 100000000000%Z view9 view9 view9;
   KTransport 7 (TPolled (RdData [10]) (WrOk 1)); KPoll []; KPoll []; KPoll []; KPoll []].
Example C141_case :
  let '(k1, h1) := connection 0%Z race_id view9 view9 flow_start in
  let '(k2, h2) := conn_run k1 flow_rest in
  match session k1 7, session k2 7 with
  | Some s1, Some s2 =>
      forallb (fun x => match x with
                        | XRecv e _ => match v_get (e_table e) 0 with None => true | Some _ => false end
                        | XMgr (OOpen sid _ _ _) => sid <? 2 ^ 24
                        | _ => true
                        end) h1 = true /\
      k_result k2 = None /\ Forall no_input flow_rest /\ ahead k1 7 s1 = 3%nat /\ wakeups flow_rest = 1%nat /\
      client_polls flow_rest = 6%nat /\ s_incap s1 = 65536 /\ s_input s1 = [7; 8; 9] /\
      data_out 7 h1 = [] /\ data_out 7 (h1 ++ h2) = [7; 8; 9; 10] /\ map m_session (ClientSpec.sent h2) = [0; 0; 0; 0; 7]
  | _, _ => False
  end.
Proof. vm_compute. repeat split; repeat constructor. Qed.
