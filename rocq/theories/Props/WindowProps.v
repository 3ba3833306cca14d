(** Property C157: the window of the server.

    [data_out sid h]: the data sent to the server for session [sid] since it was opened; [acknowledged sid h]: the bytes that the
    DATA_ACK messages of the server acknowledged since then; [from_service sid h]: what was read from the service. *)
From Coq Require Import NArith ZArith List Bool.
From Verif.Model Require Import Bytes Frame Service Control Session Manager Client.
From Verif.Spec Require Import ManagerSpec ClientSpec WireSpec FairSpec FlowSpec WindowSpec.
From Verif.Proofs Require Import ClientPropsPf2 WindowPf.
Import ListNotations.
Local Open Scope N_scope.

(** C157: the data sent and not acknowledged is never more than the window, and the session knows exactly how much it may still send. *)
Theorem C157_window :
  forall (t : Z) (i : identity) (v1 v2 : view) (es : list kev) (k : conn) (h : list cobs) (sid : N) (s : sess),
    connection t i v1 v2 es = (k, h) -> k_result k = None -> session k sid = Some s ->
    control_has_no_address h -> short_ids h ->
    nlen (data_out sid h) <= 65536 + acknowledged sid h /\
    (65536 + acknowledged sid h < 2 ^ 64 -> nlen (data_out sid h) + s_incap s = 65536 + acknowledged sid h).
Proof. intros until s. apply window. Qed.
Print Assumptions C157_window.

(** And the window is used: while the server is silent, everything that was read from the service is sent, up to the window beyond
    what is acknowledged, as soon as the client was polled more often than messages are ahead (as in C141). *)
Theorem C157_used :
  forall (t : Z) (i : identity) (v1 v2 : view) (es1 : list kev) (k1 : conn) (h1 : list cobs) (es2 : list kev) (k2 : conn)
         (h2 : list cobs) (sid : N) (s1 s2 : sess),
    connection t i v1 v2 es1 = (k1, h1) -> conn_run k1 es2 = (k2, h2) -> k_result k2 = None ->
    control_has_no_address h1 -> short_ids h1 -> Forall no_input es2 ->
    session k1 sid = Some s1 -> session k2 sid = Some s2 -> (ahead k1 sid s1 + 2 * wakeups es2 < client_polls es2)%nat ->
    65536 + acknowledged sid h1 < 2 ^ 64 ->
    starts_with_bytes (data_out sid (h1 ++ h2)) (firstn (N.to_nat (65536 + acknowledged sid h1)) (from_service sid h1)).
Proof. intros until s2. apply window_flow. Qed.
Print Assumptions C157_used.

(** The service sent [7; 8; 9]; the client sent them; the server acknowledged two; then the service sent [10] *)
Definition window_start : list kev :=
  session_events 0 ++ [KTransport 7 TConnected;
    KTransport 7 (TPolled (RdData [7; 8; 9]) WrPending); KPoll []; KPoll []; KPoll []; KPoll []; KPoll [];
    KPoll [SMsg 3%Z (env0 view9) (control_msg [0; 52; 0; 12; 0; 0; 0; 7; 0; 0; 0; 2])];
    KTransport 7 (TPolled (RdData [10]) WrPending)].
Definition window_rest : list kev := [KPoll []; KPoll []; KPoll []; KPoll []; KPoll []].
Example C157_case :
  let '(k1, h1) := connection 0%Z race_id view9 view9 window_start in
  let '(k2, h2) := conn_run k1 window_rest in
  match session k1 7, session k2 7 with
  | Some s1, Some s2 =>
      forallb (fun x => match x with
                        | XRecv e _ => match v_get (e_table e) 0 with None => true | Some _ => false end
                        | XMgr (OOpen sid _ _ _) => sid <? 2 ^ 24
                        | _ => true
                        end) h1 = true /\
      k_result k2 = None /\ Forall no_input window_rest /\ ahead k1 7 s1 = 0%nat /\ wakeups window_rest = 0%nat /\
      client_polls window_rest = 5%nat /\ acknowledged 7 h1 = 2 /\ data_out 7 h1 = [7; 8; 9] /\ s_incap s1 = 65535 /\
      from_service 7 h1 = [7; 8; 9; 10] /\ data_out 7 (h1 ++ h2) = [7; 8; 9; 10]
  | _, _ => False
  end.
Proof. vm_compute. repeat split; repeat constructor. Qed.
