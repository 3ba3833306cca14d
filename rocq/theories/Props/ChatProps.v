(** C144: a conversation with a service, from the request of the server to the answer it gets. *)
From Coq Require Import NArith ZArith List Bool Lia.
From Verif.Model Require Import Bytes Frame Service Control Session Manager Client.
From Verif.Spec Require Import ManagerSpec ClientSpec WireSpec FairSpec ChatSpec.
From Verif.Proofs Require Import ControlProofs ClientPropsPf2 ChatPf.
Import ListNotations.
Local Open Scope N_scope.

(** The server asks for a connection to a service of the table that the client may reach, as a session that is not in
    use; the connection is established; the server sends a request of at most a window; the service takes the request
    and answers. Whatever else happens meanwhile to the other sessions, if the connection to the server is not lost then
    the connection to the address of the service was opened, exactly the request was written to it, exactly the answer
    was read from it, and the session is alive. *)
Theorem C144_carried :
  forall (t : Z) (i : identity) (v1 v2 : view) (es1 : list kev) (k1 : conn) (h1 : list cobs) (t1 t2 : Z) (e1 e2 : env)
         (m1 : amsg) (id svc sid : N) (s : service) (a : saddr) (req answer : bytes) (len : N) (w : wr)
         (n1 n2 n3 n4 : list kev) (k2 : conn) (h2 : list cobs),
    connection t i v1 v2 es1 = (k1, h1) -> session k1 sid = None ->
    server_says m1 {| cm_id := id; cm_type := 13; cm_body := BConnect svc sid |} -> svc <> 0 ->
    v_get (e_table e1) svc = Some s -> s_addr s = Some a -> reachable i a ->
    nlen req <= 65536 -> nlen req <= len -> answer <> [] -> Forall (bystander sid) (n1 ++ n2 ++ n3 ++ n4) ->
    conn_run k1 (chat sid (SMsg t1 e1 m1) (SMsg t2 e2 {| m_service := svc; m_session := sid; m_payload := req |})
                   len answer w n1 n2 n3 n4) = (k2, h2) ->
    k_result k2 = None ->
    exists h3 h4 s2,
      h2 = h3 ++ [XMgr (OOpen sid (s_type s) (match s_mac s with Some m => m | None => 0 end) a)] ++ h4 /\
      to_service sid (h1 ++ h2) = req /\ from_service sid (h1 ++ h2) = answer /\
      session k2 sid = Some s2 /\ s_closed s2 = false /\ s_input s2 = answer /\ s_incap s2 = 65536 /\ s_output s2 = [].
Proof. exact talk. Qed.
Print Assumptions C144_carried.

(** If the server stays silent and the client is then polled more often than messages are ahead, counting two rounds of
    the sessions and two messages for each wake-up of the watchdog, the server gets exactly the answer. *)
Theorem C144_answered :
  forall (t : Z) (i : identity) (v1 v2 : view) (es1 : list kev) (k1 : conn) (h1 : list cobs) (t1 t2 : Z) (e1 e2 : env)
         (m1 : amsg) (id svc sid : N) (s : service) (a : saddr) (req answer : bytes) (len : N) (w : wr)
         (n1 n2 n3 n4 : list kev) (k2 : conn) (h2 : list cobs),
    connection t i v1 v2 es1 = (k1, h1) -> session k1 sid = None ->
    server_says m1 {| cm_id := id; cm_type := 13; cm_body := BConnect svc sid |} -> svc <> 0 ->
    v_get (e_table e1) svc = Some s -> s_addr s = Some a -> reachable i a ->
    nlen req <= 65536 -> nlen req <= len -> answer <> [] -> Forall (bystander sid) (n1 ++ n2 ++ n3 ++ n4) ->
    conn_run k1 (chat sid (SMsg t1 e1 m1) (SMsg t2 e2 {| m_service := svc; m_session := sid; m_payload := req |})
                   len answer w n1 n2 n3 n4) = (k2, h2) ->
    k_result k2 = None ->
    forall (n5 : list kev) (k3 : conn) (h3 : list cobs),
      nlen answer <= 65536 -> Forall (bystander sid) n5 -> conn_run k2 n5 = (k3, h3) -> k_result k3 = None ->
      control_has_no_address (h1 ++ h2) -> short_ids (h1 ++ h2) ->
      (turns_ahead k2 + 2 * wakeups n5 < client_polls n5)%nat ->
      to_service sid (h1 ++ h2 ++ h3) = req /\ data_out sid (h1 ++ h2 ++ h3) = answer.
Proof. exact answered. Qed.
Print Assumptions C144_answered.

(** A registered client with another session that is busy: a request of three bytes, an answer of two. *)
Definition start144 : list kev :=
  up_events ++ [KPoll [SMsg 2%Z (env0 view9) (control_msg [0; 49; 0; 13; 0; 5; 0; 0; 0; 6])]; KTransport 6 TConnected].
Definition ask144 : sitem := SMsg 3%Z (env0 view9) (connect_msg 0).
Definition request144 : sitem := SMsg 4%Z (env0 view9) {| m_service := 5; m_session := 7; m_payload := [1; 2; 3] |}.
Definition idle144 : list kev := [KTransport 7 (TPolled RdPending WrPending); KTransport 6 (TPolled (RdData [9]) WrPending); KPoll []].
Definition end144 : list kev := KTick 100000000000%Z view9 view9 view9 :: repeat (KPoll []) 8.
Definition chat144 : list kev := chat 7 ask144 request144 10 [4; 5] WrErr idle144 idle144 idle144 idle144.
Example C144_met :
  server_says (connect_msg 0) {| cm_id := 50; cm_type := 13; cm_body := BConnect 5 7 |} /\
  (exists a, s_addr (tcp1 9) = Some a /\ reachable race_id a) /\
  Forall (bystander 7) (idle144 ++ idle144 ++ idle144 ++ idle144) /\ Forall (bystander 7) end144.
Proof.
  split; [split; [reflexivity|apply accept_iff; [repeat constructor|reflexivity]]|].
  split; [eexists; split; [reflexivity|left; reflexivity]|].
  split; repeat (constructor; [cbn; intros; first [exact I|discriminate]|]); constructor.
Qed.
Example C144_case :
  let '(k1, h1) := connection 0%Z race_id view9 view9 start144 in
  let '(k2, h2) := conn_run k1 chat144 in
  let '(k3, h3) := conn_run k2 end144 in
  session k1 7 = None /\ k_result k3 = None /\ turns_ahead k2 = 4%nat /\ wakeups end144 = 1%nat /\ client_polls end144 = 8%nat /\
  forallb (fun x => match x with
                    | XRecv e _ => match v_get (e_table e) 0 with None => true | Some _ => false end
                    | XMgr (OOpen sid _ _ _) => sid <? 2 ^ 24
                    | _ => true
                    end) (h1 ++ h2) = true /\
  to_service 7 (h1 ++ h2 ++ h3) = [1; 2; 3] /\ data_out 7 (h1 ++ h2 ++ h3) = [4; 5] /\
  data_out 6 (h1 ++ h2 ++ h3) = [9; 9; 9; 9].
Proof. vm_compute. repeat split. Qed.
