(** Properties of the log of a connection: C151. *)
From Coq Require Import String NArith ZArith List Bool.
From Verif.Model Require Import Bytes Text Frame Service Control Session Manager Client Logger Journal ConnLog.
From Verif.Spec Require Import ControlSpec ClientSpec OpaqueSpec ConnLogSpec.
From Verif.Proofs Require Import ClientPropsPf2 ConnLogPf ConnLogPf2.
Import ListNotations.
Local Open Scope N_scope.

(** [connection_log aprint t i v1 v2 es]: the records of a connection, those of the protocol and those of the session manager;
    [es] has the text of an error beside each event.

    C151: the records of the protocol name the control messages that are received and made, one by one and in order,
    but for the acknowledgements of data. *)
Theorem C151_messages :
  forall (aprint : saddr -> bytes) (t : Z) (i : identity) (v1 v2 : view) (es : list (kev * bytes)) (k : conn) (h : list cobs),
    connection t i v1 v2 (map fst es) = (k, h) -> bytes_received h ->
    exists ls, Forall2 tells h ls /\ own_lines (connection_log aprint t i v1 v2 es) = List.concat ls.
Proof. intros aprint t i v1 v2 es k h E. exact (proj1 (connection_told aprint t i v1 v2 es k h E)). Qed.
Print Assumptions C151_messages.

(** The other records are those of the session manager, about which C147 is. *)
Theorem C151_sessions :
  forall (aprint : saddr -> bytes) (t : Z) (i : identity) (v1 v2 : view) (es : list (kev * bytes)) (k : conn) (h : list cobs),
    connection t i v1 v2 (map fst es) = (k, h) ->
    exists mes, mgr_run (mgr_new SESSION_WINDOW_SIZE (id_gateway i) factory_new) (map fst mes) = (c_mgr (k_ctx k), manager_history h) /\
      session_lines (connection_log aprint t i v1 v2 es) = mgr_journal aprint (mgr_new SESSION_WINDOW_SIZE (id_gateway i) factory_new) mes.
Proof. intros aprint t i v1 v2 es k h E. exact (proj2 (connection_told aprint t i v1 v2 es k h E)). Qed.
Print Assumptions C151_sessions.

(** Nothing of the password, the UUID, the MAC address and the extended information can be learned from the log. *)
Theorem C151_identity :
  forall (aprint : saddr -> bytes) (t : Z) (i i' : identity) (v1 v2 : view) (es : list (kev * bytes)),
    id_gateway i = id_gateway i' -> connection_log aprint t i' v1 v2 es = connection_log aprint t i v1 v2 es.
Proof. exact log_secrecy. Qed.
Print Assumptions C151_identity.

(** Nor anything of the data of the sessions. *)
Theorem C151_data :
  forall (f : N -> N -> N) (aprint : saddr -> bytes) (t : Z) (i : identity) (v1 v2 : view) (es : list (kev * bytes)),
    Forall plain_event (map fst es) ->
    connection_log aprint t i v1 v2 (map (fun p => (ren_kev f (fst p), snd p)) es) = connection_log aprint t i v1 v2 es.
Proof. intros f aprint. exact (log_opaque aprint f). Qed.
Print Assumptions C151_data.

Definition day151 : list (kev * bytes) :=
  map (fun e => (e, []))
    (up_events ++ [KPoll [SMsg 2%Z (env0 view9) (connect_msg 0)]; KTransport 7 TConnected; KTick 61000000000%Z viewA viewA viewA;
                   KPoll [SMsg 3%Z (env0 view9) (control_msg [0; 52; 0; 8]); SMsg 3%Z (env0 view9) (hup_msg 0)]]).
Example C151_case :
  let es := day151 in
  let l := connection_log (fun _ => lit "1.2.3.4:80"%string) 0%Z race_id view0 view0 es in
  map j_text (own_lines l) =
    map lit ["sending REGISTER request..."; "received control message: ACK"; "received control message: CONNECT"; "sending a PING message...";
             "sending an UPDATE message..."; "received control message: GET_STATUS"; "sending a STATUS message..."]%string /\
  map j_text (session_lines l) =
    map lit ["connecting to remote service: 1.2.3.4:80, service ID: 0005, session ID: 000007"]%string /\
  bytes_received (snd (connection 0%Z race_id view0 view0 (map fst es))) /\ Forall plain_event (map fst es).
Proof.
  split; [vm_compute; reflexivity|]. split; [vm_compute; reflexivity|]. split.
  - apply bytes_check. vm_compute. reflexivity.
  - assert (P : plain_table view9) by (intros s E; vm_compute in E; discriminate E). repeat constructor; exact P.
Qed.
