(** Properties of the data that a connection carries: C150. *)
From Coq Require Import NArith ZArith List Bool.
From Verif.Model Require Import Bytes Frame Service Control Session Manager Client Journal.
From Verif.Spec Require Import TableSpec ConfigSpec OpaqueSpec.
From Verif.Proofs Require Import TableProofs ClientPropsPf2 OpaquePf OpaquePf2.
Import ListNotations.
Local Open Scope N_scope.

(** C150: if the bytes of the sessions were others, the same would happen with the other bytes: the same messages of the
    same sizes would be sent at the same moments, the same connections opened and closed, and the connection would end
    in the same way. The only thing asked of the service table is that the control service has no address. *)
Theorem C150_carried :
  forall (f : N -> N -> N) (t : Z) (i : identity) (v1 v2 : view) (es : list kev) (k : conn) (h : list cobs),
    connection t i v1 v2 es = (k, h) -> Forall plain_event es ->
    exists k', connection t i v1 v2 (map (ren_kev f) es) = (k', map (ren_cobs f) h) /\ k_result k' = k_result k.
Proof. exact opaque_data. Qed.
Print Assumptions C150_carried.

(** The tables of the program satisfy this: every table that the program builds is [consistent] (C33). *)
Theorem C150_tables : forall t, consistent t -> plain_table (view_of t).
Proof. exact tables_plain. Qed.
Print Assumptions C150_tables.
Example C150_tables_case : consistent (SvcTable.table_new 0%Z) /\ v_get (view_of (SvcTable.table_new 0%Z)) 0 = Some svc_control.
Proof. split; [apply TableProofs.table_new_consistent|reflexivity]. Qed.

(** So what is shown of one session does not depend on the data of the others. *)
Theorem C150_apart :
  forall (f : N -> N -> N) (n : N) (t : Z) (i : identity) (v1 v2 : view) (es : list kev),
    (forall b, f n b = b) -> Forall plain_event es ->
    filter (about n) (snd (connection t i v1 v2 (map (ren_kev f) es))) = filter (about n) (snd (connection t i v1 v2 es)).
Proof.
  intros f n t i v1 v2 es. exact (opaque_apart f n t i v1 v2 es).
Qed.
Print Assumptions C150_apart.

(** And the log of the sessions does not show the data, whatever they are. *)
Theorem C150_log :
  forall (f : N -> N -> N) (aprint : saddr -> bytes) (W : N) (gw : bool) (fa : factory) (es : list (mev * bytes)),
    Forall plain_mev (map fst es) ->
    mgr_journal aprint (mgr_new W gw fa) (map (fun p => (ren_mev f (fst p), snd p)) es) = mgr_journal aprint (mgr_new W gw fa) es.
Proof. exact opaque_journal. Qed.
Print Assumptions C150_log.

(** Two sessions; the server sends to both, both services answer. The bytes of session 7 are replaced. *)
Definition two_sessions : list kev :=
  up_events ++
  [KPoll [SMsg 2%Z (env0 view9) (control_msg [0; 49; 0; 13; 0; 5; 0; 0; 0; 6])]; KPoll [SMsg 3%Z (env0 view9) (connect_msg 0)];
   KTransport 6 TConnected; KTransport 7 TConnected;
   KPoll [SMsg 4%Z (env0 view9) {| m_service := 5; m_session := 7; m_payload := [1; 2; 3] |};
          SMsg 4%Z (env0 view9) {| m_service := 5; m_session := 6; m_payload := [4; 5] |}];
   KTransport 7 (TPolled (RdData [8; 9]) (WrOk 3)); KTransport 6 (TPolled (RdData [7]) (WrOk 2)); KPoll []; KPoll []; KPoll []; KPoll []].
Definition other (n b : N) : N := if n =? 7 then 100 + b else b.
Example C150_case :
  let h := snd (connection 0%Z race_id view9 view9 two_sessions) in
  let h' := snd (connection 0%Z race_id view9 view9 (map (ren_kev other) two_sessions)) in
  Forall plain_event two_sessions /\
  map m_payload (flat_map (fun o => match o with XSent m => if about 6 o || about 7 o then [m] else [] | _ => [] end) h) = [[7]; [8; 9]] /\
  map m_payload (flat_map (fun o => match o with XSent m => if about 6 o || about 7 o then [m] else [] | _ => [] end) h') = [[7]; [108; 109]] /\
  (length (filter (about 7) h) = length (filter (about 7) h') /\ 0 < length (filter (about 7) h))%nat.
Proof.
  split; [|vm_compute; repeat split; repeat constructor].
  assert (P : plain_table view9) by (intros s E; vm_compute in E; discriminate E).
  repeat constructor; exact P.
Qed.
