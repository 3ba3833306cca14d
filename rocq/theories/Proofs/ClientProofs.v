(** What the handlers of the client do, and the invariant of a running connection. *)
From Coq Require Import NArith ZArith List Bool Lia ZifyBool ZifyNat ZifyN.
From Verif.Model Require Import Bytes Frame Service Control Alist Session Manager Client.
From Verif.Spec Require Import ControlSpec ManagerSpec ClientSpec.
From Verif.Proofs Require Import BytesFacts ControlProofs AlistFacts ManagerProofs.
Import ListNotations.
Local Open Scope N_scope.

Ltac csimp := cbn [c_mgr c_messages c_acks c_established c_task c_run c_redirect c_closed c_last_ping c_last_check
  c_version set_mgr set_messages set_acks set_established set_ctask set_redirect set_closed set_last_ping
  set_last_check set_version] in *.

(** ** Reading messages *)
Lemma from_bytes_4 a b x y body :
  cmsg_from_bytes (a :: b :: x :: y :: body) =
  match decode_body (message_type (x * 256 + y)) body with
  | ROk bd => ROk {| cm_id := a * 256 + b; cm_type := x * 256 + y; cm_body := bd |}
  | RErr => RErr
  | RPanic => RPanic
  end.
Proof.
  unfold cmsg_from_bytes. change (Nat.ltb (length (a :: b :: x :: y :: body)) 4) with false.
  change (of_be (field (firstn 4 (a :: b :: x :: y :: body)) 0 2)) with (a * 256 + b).
  change (of_be (field (firstn 4 (a :: b :: x :: y :: body)) 2 2)) with (x * 256 + y).
  reflexivity.
Qed.

Lemma read_ack_decode m id code :
  read_ack m = Some (id, code) ->
  m_service m = 0 /\ cmsg_from_bytes (m_payload m) = ROk {| cm_id := id; cm_type := 0; cm_body := BAck code |}.
Proof.
  unfold read_ack. destruct (m_payload m) as [|a [|b [|x [|y [|c [|d [|e [|f [|? ?]]]]]]]]]; try discriminate.
  destruct ((m_service m =? 0) && (x =? 0) && (y =? 0)) eqn:E; [|discriminate].
  assert (m_service m = 0 /\ x = 0 /\ y = 0) as (A & -> & ->) by lia.
  intros [= <- <-]. split; [exact A|]. rewrite from_bytes_4. reflexivity.
Qed.

Lemma read_request_decode m r :
  read_request m = Some r ->
  m_service m = 0 /\
  cmsg_from_bytes (m_payload m) =
    ROk (match r with
         | AskPing id => {| cm_id := id; cm_type := 1; cm_body := BEmpty |}
         | AskStatus id => {| cm_id := id; cm_type := 8; cm_body := BEmpty |}
         | AskReport id => {| cm_id := id; cm_type := 10; cm_body := BEmpty |}
         end).
Proof.
  unfold read_request. destruct (m_payload m) as [|a [|b [|x [|y [|? ?]]]]]; try discriminate.
  destruct ((m_service m =? 0) && (x =? 0)) eqn:E; [|discriminate].
  assert (m_service m = 0 /\ x = 0) as (A & ->) by lia.
  destruct (N.eqb_spec y 1) as [->|_]; [intros [= <-]; split; [exact A|]; rewrite from_bytes_4; reflexivity|].
  destruct (N.eqb_spec y 8) as [->|_]; [intros [= <-]; split; [exact A|]; rewrite from_bytes_4; reflexivity|].
  destruct (N.eqb_spec y 10) as [->|_]; [intros [= <-]; split; [exact A|]; rewrite from_bytes_4; reflexivity|].
  discriminate.
Qed.

(** The decoded message determines how it is read. *)
Definition read_as (m : amsg) (cm : cmsg) : Prop :=
  match message_type (cm_type cm), cm_body cm with
  | ACK, BAck err => read_ack m = Some (cm_id cm, err)
  | PING, BEmpty => read_request m = Some (AskPing (cm_id cm))
  | GET_STATUS, BEmpty => read_request m = Some (AskStatus (cm_id cm))
  | GET_SCAN_REPORT, BEmpty => read_request m = Some (AskReport (cm_id cm))
  | CONNECT, BConnect _ _ | DATA_ACK, BDataAck _ _ | HUP, BHup _ _ | REDIRECT, BRedirect _
  | RESET_SVC_TABLE, BEmpty | SCAN_NETWORK, BEmpty => read_ack m = None /\ read_request m = None
  | _, _ => False
  end.

Lemma decode_read m cm :
  m_service m = 0 -> cmsg_from_bytes (m_payload m) = ROk cm -> read_as m cm.
Proof.
  intros Hs H. destruct (m_payload m) as [|a [|b [|x [|y body]]]] eqn:Ep; try discriminate.
  rewrite from_bytes_4 in H.
  assert (Hnr : forall code, x * 256 + y = code -> code <> 1 -> code <> 8 -> code <> 10 -> read_request m = None).
  { intros code E1 E2 E3 E4. unfold read_request. rewrite Ep. destruct body; [|reflexivity]. rewrite Hs. cbn [N.eqb andb].
    destruct (N.eqb_spec x 0); [|reflexivity]. subst x.
    destruct (N.eqb_spec y 1); [lia|]. destruct (N.eqb_spec y 8); [lia|]. destruct (N.eqb_spec y 10); [lia|]. reflexivity. }
  assert (Hna : x * 256 + y <> 0 -> read_ack m = None).
  { intros E. unfold read_ack. rewrite Ep.
    destruct body as [|? [|? [|? [|? [|? ?]]]]]; try reflexivity. rewrite Hs. cbn [N.eqb andb].
    destruct (N.eqb_spec x 0); [|reflexivity]. destruct (N.eqb_spec y 0); [lia|reflexivity]. }
  assert (Hv : forall code, x * 256 + y = code -> code < 256 -> x = 0 /\ y = code) by lia.
  destruct (message_type_cases (x * 256 + y)) as [[V E]|[[V E]|[[V E]|[[V E]|[[V E]|[[V E]|[[V E]|[[V E]|[[V E]|[[V E]|[[V E]|[[V E]|[[V E]|[[V E]|[V E]]]]]]]]]]]]]]];
    rewrite E in H; cbn [decode_body] in H; try discriminate;
    try (destruct body as [|? ?]; [|discriminate H]; cbn [empty_from_bytes lift_from] in H; injection H as <-; unfold read_as;
         cbn [cm_type cm_body cm_id]; rewrite E;
         first [ split; [apply Hna; lia|eapply Hnr; [exact V|lia..]]
               | destruct (Hv _ V ltac:(lia)) as [-> ->]; unfold read_request; rewrite Ep, Hs; reflexivity ]).
  - unfold ack_from_bytes in H. destruct (Nat.eqb (length body) 4) eqn:El; cbn [negb lift_from] in H; [|discriminate].
    apply Nat.eqb_eq in El. apply len4 in El as (x0 & x1 & x2 & x3 & ->). injection H as <-.
    unfold read_as. cbn [cm_type cm_body cm_id]. rewrite E. destruct (Hv _ V ltac:(lia)) as [-> ->].
    unfold read_ack. rewrite Ep, Hs. reflexivity.
  - destruct (redirect_from_bytes body) eqn:Er; cbn [lift_from] in H; try discriminate. injection H as <-.
    apply redirect_inv in Er as (tg & -> & Ht & ->). unfold read_as. cbn [cm_type cm_body]. rewrite E.
    split; [apply Hna; lia|eapply Hnr; [exact V|lia..]].
  - unfold hup_from_bytes in H. destruct (negb _); cbn [lift_from] in H; [discriminate|]. injection H as <-.
    unfold read_as. cbn [cm_type cm_body]. rewrite E. split; [apply Hna; lia|eapply Hnr; [exact V|lia..]].
  - unfold data_ack_from_bytes in H. destruct (negb _); cbn [lift_from] in H; [discriminate|]. injection H as <-.
    unfold read_as. cbn [cm_type cm_body]. rewrite E. split; [apply Hna; lia|eapply Hnr; [exact V|lia..]].
  - unfold connect_from_bytes in H. destruct (negb _); cbn [lift_from] in H; [discriminate|]. injection H as <-.
    unfold read_as. cbn [cm_type cm_body]. rewrite E. split; [apply Hna; lia|eapply Hnr; [exact V|lia..]].
Qed.

(** ** What a received message does *)
Definition mgr_event (e : env) (m : amsg) (me : mev) : Prop :=
  (m_service m <> 0 /\ me = MSend m) \/
  (m_service m = 0 /\ exists cm, cmsg_from_bytes (m_payload m) = ROk cm /\
     match message_type (cm_type cm), cm_body cm with
     | CONNECT, BConnect svc sid => me = MConnect (v_get (e_table e)) svc sid
     | DATA_ACK, BDataAck sid len => me = MDataAck sid len
     | HUP, BHup sid _ => me = MClose sid
     | _, _ => False
     end).

Definition answer_to (e : env) (c : ctx) (r : request) : cmsg * ctx :=
  match r with
  | AskPing id => (mk_ack id 0, c)
  | AskStatus id =>
      let '(n, c1) := c_next_id c in
      (mk_status n id (if e_scanning e then 1 else 0) (u32 (nlen (g_sessions (c_mgr c)))), c1)
  | AskReport id =>
      let '(n, c1) := c_next_id c in
      (mk_scan_report n id (e_hosts e) (scan_report_services (e_get_id e) (e_services e)), c1)
  end.

Definition redirected (c : ctx) (target : bytes) : ctx :=
  let c1 := set_redirect c target in if c_task c1 then set_ctask c1 false true else c1.

Inductive handled (t : Z) (e : env) (c : ctx) (m : amsg) : option ekind -> ctx -> list cobs -> Prop :=
| Hd_refused :
    read_ack m = None -> c_established c = false \/ (m_service m = 0 /\ cmsg_from_bytes (m_payload m) = RErr) ->
    handled t e c m (Some OtherError) c []
| Hd_ack_none id code :
    read_ack m = Some (id, code) -> c_acks c = [] -> handled t e c m (Some OtherError) c []
| Hd_ack_wrong id code t0 x rest :
    read_ack m = Some (id, code) -> c_acks c = (t0, x) :: rest -> id <> x ->
    handled t e c m (Some OtherError) (set_acks c rest) []
| Hd_ack_ok id code t0 rest :
    read_ack m = Some (id, code) -> c_acks c = (t0, id) :: rest -> c_established c = true ->
    handled t e c m None (set_acks c rest) []
| Hd_register id code t0 rest r c' :
    read_ack m = Some (id, code) -> c_acks c = (t0, id) :: rest -> c_established c = false ->
    handshake_ack e (set_acks c rest) code = (r, c') -> handled t e c m r c' []
| Hd_mgr me g o :
    read_ack m = None -> read_request m = None -> c_established c = true -> mgr_event e m me ->
    mgr_step (c_mgr c) me = (g, o) -> handled t e c m None (set_mgr c g) (map XMgr o)
| Hd_ask r a c1 :
    read_ack m = None -> read_request m = Some r -> c_established c = true -> answer_to e c r = (a, c1) ->
    handled t e c m None (fst (send_control t c1 a)) [XQueue t a]
| Hd_redirect id target :
    read_ack m = None -> read_request m = None -> c_established c = true -> m_service m = 0 ->
    cmsg_from_bytes (m_payload m) = ROk {| cm_id := id; cm_type := 3; cm_body := BRedirect target |} ->
    handled t e c m None (redirected c target) []
| Hd_cmd cmd id ty :
    read_ack m = None -> read_request m = None -> c_established c = true -> m_service m = 0 ->
    cmsg_from_bytes (m_payload m) = ROk {| cm_id := id; cm_type := ty; cm_body := BEmpty |} ->
    message_type ty = match cmd with ResetServiceTable => RESET_SVC_TABLE | ScanNetwork => SCAN_NETWORK end ->
    handled t e c m None c [XCmd cmd].

Lemma read_request_no_ack m r : read_request m = Some r -> read_ack m = None.
Proof.
  unfold read_request, read_ack. destruct (m_payload m) as [|a [|b [|x [|y [|? ?]]]]]; try discriminate. reflexivity.
Qed.
Lemma read_ack_no_request m r : read_ack m = Some r -> read_request m = None.
Proof.
  unfold read_request, read_ack. destruct (m_payload m) as [|a [|b [|x [|y [|c [|d ?]]]]]]; try discriminate; reflexivity.
Qed.

Lemma process_ack_handled t e c m id code r c' :
  read_ack m = Some (id, code) -> process_ack e c id code = (r, c') -> handled t e c m r c' [].
Proof.
  intros Hr. unfold process_ack. destruct (c_acks c) as [|[t0 x] rest] eqn:Ea.
  - intros [= <- <-]. eapply Hd_ack_none; eauto.
  - destruct (N.eqb_spec id x) as [E|E].
    + subst x. destruct (c_established c) eqn:Ee; [intros [= <- <-]; eapply Hd_ack_ok; eauto|].
      intros H. eapply Hd_register; eauto.
    + intros [= <- <-]. eapply Hd_ack_wrong; eauto.
Qed.

Lemma process_handled t e c m r c' o :
  is_closed c = false -> process_message t e c m = (r, c', o) ->
  exists o', o = XRecv e m :: o' /\ handled t e c m r c' o'.
Proof.
  intros Hc. unfold process_message. rewrite Hc.
  destruct (N.eqb_spec (m_service m) 0) as [Hs|Hs].
  - destruct (cmsg_from_bytes (m_payload m)) as [cm| |] eqn:Ed.
    + pose proof (decode_read m cm Hs Ed) as R. unfold read_as in R.
      destruct (process_control t e c cm) as [[r0 c0] o0] eqn:Ep. intros [= <- <- <-]. exists o0. split; [reflexivity|].
      unfold process_control in Ep. cbv zeta in Ep.
      assert (Hest : forall x : ctx * list cobs,
        ((if c_established c then (None, fst x, snd x) else (Some OtherError, c, [])) = (r0, c0, o0)) ->
        read_ack m = None -> (c_established c = true -> handled t e c m None (fst x) (snd x)) -> handled t e c m r0 c0 o0).
      { intros x Hx Ha Hk. destruct (c_established c) eqn:Ee; injection Hx as <- <- <-; [auto|]. apply Hd_refused; auto. }
      destruct (message_type (cm_type cm)) eqn:Et.
      all: destruct (cm_body cm) as [|err|svc sid|sid len|sid err|target|q1 q2 q3|q1 q2 q3 q4 q5 q6 q7|q1|q1 q2 q3] eqn:Eb; try contradiction R.
      * destruct (process_ack e c (cm_id cm) err) as [r1 c1] eqn:Ea. injection Ep as <- <- <-.
        eapply process_ack_handled; eauto.
      * apply Hest in Ep; [exact Ep|eapply read_request_no_ack; eauto|]. intros Ee.
        apply (Hd_ask t e c m (AskPing (cm_id cm)) (mk_ack (cm_id cm) 0) c); auto. eapply read_request_no_ack; eauto.
      * destruct R as [R1 R2]. apply Hest in Ep; [exact Ep|exact R1|]. intros Ee. apply (Hd_redirect t e c m (cm_id cm)); auto.
        rewrite Ed. f_equal. destruct cm as [i ty bd]. cbn in *. subst bd. f_equal.
        destruct (message_type_cases ty) as [[V E]|[[V E]|[[V E]|[[V E]|[[V E]|[[V E]|[[V E]|[[V E]|[[V E]|[[V E]|[[V E]|[[V E]|[[V E]|[[V E]|[V E]]]]]]]]]]]]]]]; congruence.
      * destruct R as [R1 R2]. apply Hest in Ep; [exact Ep|exact R1|]. intros Ee.
        destruct (mgr_close (c_mgr c) sid) as [g ob] eqn:Eg. apply (Hd_mgr t e c m (MClose sid)); auto.
        right. split; [exact Hs|]. exists cm. rewrite Ed, Et, Eb. now split.
      * destruct R as [R1 R2]. apply Hest in Ep; [exact Ep|exact R1|]. intros Ee. apply (Hd_cmd t e c m _ (cm_id cm) (cm_type cm)); auto.
        rewrite Ed. f_equal. destruct cm as [i ty bd]. cbn in *. now subst bd.
      * destruct R as [R1 R2]. apply Hest in Ep; [exact Ep|exact R1|]. intros Ee. apply (Hd_cmd t e c m _ (cm_id cm) (cm_type cm)); auto.
        rewrite Ed. f_equal. destruct cm as [i ty bd]. cbn in *. now subst bd.
      * apply Hest in Ep; [exact Ep|eapply read_request_no_ack; eauto|]. intros Ee.
        pose proof (Hd_ask t e c m (AskStatus (cm_id cm))) as X. unfold answer_to in X.
        destruct (c_next_id c) as [n c1] eqn:En. eapply X in R; [|eapply read_request_no_ack; eauto|exact Ee|reflexivity].
        change (N.lor 0 STATUS_FLAG_SCAN) with 1. exact R.
      * apply Hest in Ep; [exact Ep|eapply read_request_no_ack; eauto|]. intros Ee.
        pose proof (Hd_ask t e c m (AskReport (cm_id cm))) as X. unfold answer_to in X.
        destruct (c_next_id c) as [n c1] eqn:En. eapply X in R; [|eapply read_request_no_ack; eauto|exact Ee|reflexivity].
        exact R.
      * destruct R as [R1 R2]. apply Hest in Ep; [exact Ep|exact R1|]. intros Ee.
        destruct (mgr_data_ack (c_mgr c) sid len) as [g ob] eqn:Eg. apply (Hd_mgr t e c m (MDataAck sid len)); auto.
        right. split; [exact Hs|]. exists cm. rewrite Ed, Et, Eb. now split.
      * destruct R as [R1 R2]. apply Hest in Ep; [exact Ep|exact R1|]. intros Ee.
        destruct (mgr_connect (c_mgr c) (v_get (e_table e)) svc sid) as [g ob] eqn:Eg.
        apply (Hd_mgr t e c m (MConnect (v_get (e_table e)) svc sid)); auto.
        right. split; [exact Hs|]. exists cm. rewrite Ed, Et, Eb. now split.
    + intros [= <- <- <-]. exists []. split; [reflexivity|]. apply Hd_refused; [|auto].
      destruct (read_ack m) as [[id code]|] eqn:E; [|reflexivity]. apply read_ack_decode in E. destruct E; congruence.
    + exfalso. now apply (cmsg_no_panic (m_payload m)).
  - assert (Ha : read_ack m = None).
    { destruct (read_ack m) as [[id code]|] eqn:E; [|reflexivity]. apply read_ack_decode in E. destruct E; congruence. }
    assert (Hq : read_request m = None).
    { destruct (read_request m) as [q|] eqn:E; [|reflexivity]. apply read_request_decode in E. destruct E; congruence. }
    destruct (c_established c) eqn:Ee.
    + destruct (mgr_send (c_mgr c) m) as [g ob] eqn:Eg. cbn [lift_mgr]. intros [= <- <- <-].
      eexists. split; [reflexivity|]. apply (Hd_mgr t e c m (MSend m)); auto. left. auto.
    + intros [= <- <- <-]. exists []. split; [reflexivity|]. apply Hd_refused; auto.
Qed.
