(** The client does not read while it cannot write. *)
From Coq Require Import NArith ZArith List Bool Lia ZifyBool ZifyNat ZifyN.
From Verif.Model Require Import Bytes Frame Service Control Alist Session Manager Client Wire.
From Verif.Spec Require Import FrameSpec SessionSpec ManagerSpec ClientSpec WireSpec StallSpec.
From Verif.Proofs Require Import BytesFacts FrameProofs ClientInv ClientRun ClientPropsPf2 WirePf WireRun WireFinal.
Import ListNotations.
Local Open Scope N_scope.

Lemma transport_quiet c sid te c1 o : lift_mgr c (mgr_step (c_mgr c) (MTransport sid te)) = (c1, o) -> sent o = [] /\ received o = [].
Proof.
  unfold lift_mgr. destruct (mgr_step (c_mgr c) (MTransport sid te)) as [g mo]. intros E. injection E as <- <-.
  split; [apply sent_none_mgr|exact (received_mgr [] mo)].
Qed.

Lemma timed_quiet k e k' o : (forall items, e <> KPoll items) -> conn_step k e = (k', o) -> sent o = [] /\ received o = [].
Proof.
  intros N. unfold conn_step. destruct (k_result k); [intros E; injection E as <- <-; auto|].
  destruct e as [items|t v0 v1 v2| |sid te].
  - exfalso. exact (N _ eq_refl).
  - destruct (is_closed (k_ctx k)); [intros E; injection E as <- <-; auto|].
    destruct (time_event t (k_ctx k) v0 v1 v2) as [[r c1] o1] eqn:T. intros E. injection E as <- <-.
    exact (tick_quiet _ _ _ _ _ _ _ _ T).
  - intros E. injection E as <- <-. auto.
  - destruct (lift_mgr _ _) as [c1 o1] eqn:L. intros E. injection E as <- <-. exact (transport_quiet _ _ _ _ _ L).
Qed.

Lemma deaf : forall es q q' o m, q_item q = Some m -> (8192 + N.of_nat (taken es) <= nlen (q_buf q)) ->
  wire_run q es = Some (q', o) ->
  received o = [] /\ sent o = [] /\ q_item q' = Some m /\ q_sock q' = q_sock q ++ reads_in es /\ q_in q' = q_in q.
Proof.
  induction es as [|e es IH]; intros q q' o m Qi B H.
  - cbn [wire_run] in H. injection H as <- <-. cbn [reads_in flat_map]. rewrite app_nil_r. repeat split; auto.
  - cbn [wire_run] in H. destruct (wire_step q e) as [[q1 o1]|] eqn:S; [|discriminate].
    destruct (wire_run q1 es) as [[q2 o2]|] eqn:R; [|discriminate]. injection H as <- <-.
    assert (K : forall ke k, (forall items, ke <> KPoll items) -> conn_step (q_conn q) ke = (k, o1) -> q1 = with_conn q k -> reads_in [e] = [] -> taken (e :: es) = taken es ->
      received (o1 ++ o2) = [] /\ sent (o1 ++ o2) = [] /\ q_item q2 = Some m /\ q_sock q2 = q_sock q ++ reads_in (e :: es) /\ q_in q2 = q_in q).
    { intros ke k Np C -> Re Te. rewrite Te in B. destruct (timed_quiet _ _ _ _ Np C) as [A1 A2].
      destruct (IH (with_conn q k) _ _ m Qi B R) as (I1 & I2 & I3 & I4 & I5).
      rewrite received_app, sent_app, A1, A2, I1, I2. repeat split; auto.
      rewrite I4. cbn [with_conn q_sock]. change (reads_in (e :: es)) with (reads_in ([e] ++ es)). unfold reads_in in *. now rewrite flat_map_app, Re. }
    destruct e as [r|clock| |n|t v0 v1 v2| |sid te]; cbn [wire_step] in S.
    + injection S as <- <-. pose proof (fun a b => IH _ _ _ m a b R) as IH'. cbn [q_item q_buf q_sock q_in] in IH'.
      destruct (IH' Qi B) as (I1 & I2 & I3 & I4 & I5). repeat split; auto. rewrite I4, <- app_assoc. reflexivity.
    + rewrite Qi in S. destruct (k_result (q_conn q)); injection S as <- <-; exact (IH _ _ _ m Qi B R).
    + rewrite Qi in S. cbn [taken fold_right] in B. destruct (N.ltb_spec (nlen (q_buf q)) BACKPRESSURE_BOUNDARY) as [L|L].
      { exfalso. unfold BACKPRESSURE_BOUNDARY in L. fold (taken es) in B. lia. }
      injection S as <- <-. exact (IH _ _ _ m Qi B R).
    + injection S as <- <-. pose proof (fun a b => IH _ _ _ m a b R) as IH'. cbn [q_item q_buf q_sock q_in] in IH'. apply IH'; [exact Qi|].
      cbn [taken fold_right] in B. fold (taken es) in B. unfold nlen in *. rewrite skipn_length. lia.
    + destruct (conn_step (q_conn q) (KTick t v0 v1 v2)) as [k oo] eqn:C. injection S as <- <-. eapply K; [|exact C|reflexivity|reflexivity|reflexivity]. discriminate.
    + destruct (conn_step (q_conn q) KSinkFailed) as [k oo] eqn:C. injection S as <- <-. eapply K; [|exact C|reflexivity|reflexivity|reflexivity]. discriminate.
    + destruct (conn_step (q_conn q) (KTransport sid te)) as [k oo] eqn:C. injection S as <- <-. eapply K; [|exact C|reflexivity|reflexivity|reflexivity]. discriminate.
Qed.

(** ** With nothing in hand the next frame is handled *)
Lemma next_error : forall sock w w' sock', framed_next w sock = (FError, w', sock') -> clean w -> Forall plain sock ->
  amsg_decode (rem w sock) = DErr.
Proof.
  assert (D : forall w w' sock, framed_decode w = Some (FError, w') -> clean w -> amsg_decode (rem w sock) = DErr).
  { intros w w' sock E [C1 C2]. unfold framed_decode in E. rewrite C1, C2 in E. destruct (f_readable w); [|discriminate].
    destruct (amsg_decode (f_buf w)) eqn:Dw; try discriminate; [|exfalso; exact (decode_no_panic _ Dw)].
    apply decode_err_app. exact Dw. }
  induction sock as [|r sock IH]; intros w w' sock' H C F; cbn [framed_next] in H;
    (destruct (framed_decode w) as [[z v]|] eqn:Dc; [injection H as -> <- <-; eapply D; eauto|]).
  - discriminate.
  - inversion F as [|? ? Hr Fs]; subst. destruct r as [[|b0 b]|]; try contradiction.
    apply IH in H; [|split; reflexivity|exact Fs]. unfold rem in *. cbn [f_buf sock_bytes flat_map] in *. rewrite <- app_assoc in H. exact H.
Qed.

Lemma next_frame w sock m r : clean w -> winv w -> Forall plain sock -> amsg_decode (rem w sock) = DMsg m r ->
  exists w' sock', framed_next w sock = (FItem m, w', sock').
Proof.
  intros C Wi F D. destruct (framed_next w sock) as [[x w'] sock'] eqn:E.
  destruct (next_clean _ _ _ _ _ E C F) as [_ Hc]. pose proof (next_step _ _ _ _ _ E) as Hs.
  destruct x; cbn [next_ok] in Hs.
  - exfalso. destruct Hs as (A & -> & B). unfold rem in A at 1. cbn [sock_bytes flat_map] in A. rewrite app_nil_r in A. rewrite <- A, (B Wi) in D. discriminate.
  - destruct Hs as [A _]. rewrite D in A. injection A as -> _. eauto.
  - exfalso. rewrite (next_error _ _ _ _ E C F) in D. discriminate.
  - contradiction.
Qed.

Lemma parsed_prefix b ms rest : parsed b ms rest -> forall ms' m rest', parsed b (ms' ++ [m]) rest' -> length ms = length ms' ->
  amsg_decode rest = DMsg m rest'.
Proof.
  induction 1 as [b|b m0 r ms rest D P IH]; intros ms' m rest' H' L.
  - destruct ms'; [|discriminate]. cbn [app] in H'. inversion H' as [|? ? ? ? ? D' P']; subst. inversion P'; subst. exact D'.
  - destruct ms' as [|m' ms']; [discriminate|]. cbn [app] in H'. inversion H' as [|? ? ? ? ? D' P']; subst.
    apply (IH ms'); [|cbn in L; lia]. congruence.
Qed.

Lemma listens t i v1 v2 es q h m rest clock :
  wire_connection t i v1 v2 es = Some (q, h) -> wf_bytes (arrived es) -> Forall only_data es ->
  k_result (q_conn q) = None -> q_item q = None ->
  reads (arrived es) (map snd (received h) ++ [m]) rest ->
  exists q' h' more, wire_connection t i v1 v2 (es ++ [WNext clock]) = Some (q', h') /\
    map snd (received h') = map snd (received h) ++ m :: more.
Proof.
  intros H W F Kr Qi R. pose proof (wire_connection_ok _ _ _ _ _ _ _ H) as [_ P Wi _].
  pose proof (parsed_prefix _ _ _ P _ _ _ (reads_parsed _ _ _ W R) eq_refl) as D.
  destruct (run_clean _ _ _ _ _ _ _ H F Kr) as [Fs C]. specialize (Wi Kr).
  pose proof (wire_open _ _ _ _ _ _ _ H Kr) as Nc.
  destruct (next_frame _ _ _ _ C Wi Fs D) as (w1 & s1 & Fn).
  pose proof (wire_app _ _ _ _ _ (WNext clock) _ _ H) as H2. cbn [wire_step] in H2. rewrite Kr, Qi in H2.
  destruct (wire_poll clock (k_ctx (q_conn q)) (q_in q) (q_sock q)) as [[[[[p c] o] w'] s']|] eqn:Pl;
    [|exfalso; exact (poll_total _ _ _ _ Pl)].
  assert (Ro : exists more, map snd (received o) = m :: more).
  { pose proof Pl as Pl'. destruct (poll_rel _ _ _ _ _ _ _ _ _ Pl' Nc Wi) as (items & _ & _ & Ri & _).
    unfold wire_poll in Pl. rewrite Fn in Pl. cbn [item_of] in Pl.
    destruct (feed_item (k_ctx (q_conn q)) (SMsg (fst (clock 0%nat)) (snd (clock 0%nat)) m)) as [[r c1] o1] eqn:Fi.
    pose proof (feed_received _ _ _ _ _ Nc Fi) as R1. cbn [item_msgs flat_map app] in R1.
    destruct r as [kind|].
    - injection Pl as <- <- <- <- <-. exists []. exact R1.
    - destruct (wire_loop _ clock 1 c1 w1 s1) as [[[[[p2 c2] o2] w2] s2]|]; [|discriminate]. injection Pl as <- <- <- <- <-.
      exists (map snd (received o2)). rewrite received_app, map_app, R1. reflexivity. }
  destruct Ro as [more Ro].
  destruct p; rewrite H2; eexists; eexists; eexists; (split; [reflexivity|]).
  all: rewrite received_app, map_app; try rewrite received_app, map_app; rewrite Ro; cbn [received flat_map map app]; try rewrite app_nil_r; reflexivity.
Qed.

(** Once the stream has taken the buffer of the sink, the client listens again. *)
Lemma listens_again t i v1 v2 es q h m rest clock n :
  wire_connection t i v1 v2 es = Some (q, h) -> wf_bytes (arrived es) -> Forall only_data es ->
  k_result (q_conn q) = None -> (nlen (q_buf q) < 8192 + N.of_nat n) ->
  reads (arrived es) (map snd (received h) ++ [m]) rest ->
  exists q' h' more, wire_connection t i v1 v2 (es ++ [WFlush n; WGive; WNext clock]) = Some (q', h') /\
    map snd (received h') = map snd (received h) ++ m :: more.
Proof.
  intros H W F Kr B R.
  change (es ++ [WFlush n; WGive; WNext clock]) with (es ++ [WFlush n] ++ [WGive] ++ [WNext clock]). rewrite !app_assoc.
  pose proof (wire_app _ _ _ _ _ (WFlush n) _ _ H) as H1. cbn [wire_step] in H1. rewrite app_nil_r in H1.
  pose proof (wire_app _ _ _ _ _ WGive _ _ H1) as H2. cbn [wire_step q_item q_buf q_conn] in H2. rewrite ?app_nil_r in H2.
  assert (A : arrived ((es ++ [WFlush n]) ++ [WGive]) = arrived es).
  { rewrite !arrived_app. cbn [arrived flat_map]. now rewrite !app_nil_r. }
  assert (G : exists q2, wire_connection t i v1 v2 ((es ++ [WFlush n]) ++ [WGive]) = Some (q2, h) /\ q_conn q2 = q_conn q /\ q_item q2 = None).
  { destruct (q_item q) as [x|].
    - destruct (N.ltb_spec (nlen (skipn n (q_buf q))) BACKPRESSURE_BOUNDARY) as [L|L].
      + rewrite app_nil_r in H2. eexists. split; [exact H2|]. auto.
      + exfalso. unfold BACKPRESSURE_BOUNDARY, nlen in *. rewrite skipn_length in L. lia.
    - rewrite app_nil_r in H2. eexists. split; [exact H2|]. auto. }
  destruct G as (q2 & H3 & Kc & Qi).
  eapply listens; [exact H3|rewrite A; exact W| |rewrite Kc; exact Kr|exact Qi|rewrite A; exact R].
  apply Forall_app. split; [apply Forall_app; split; [exact F|]|]; repeat constructor.
Qed.

(** ** A server that acknowledges in time is left *)
Definition stall_clock (s : Z) : nat -> Z * env := fun _ => ((s * SEC)%Z, env0 view9).
Definition stall_tick (s : Z) : wev := WTick (s * SEC)%Z view9 view9 view9.
(** Registered, one session, PING after 60 seconds; the PING is written, then the service sends 8256 bytes and one more. *)
Definition stall_before : list wev :=
  [WNext (stall_clock 0); WGive; WFlush 1000;
   WArrive (SData (amsg_encode (ack_msg 0 0) ++ amsg_encode (connect_msg 0))); WNext (stall_clock 1); WTransport 7 TConnected;
   stall_tick 60; WNext (stall_clock 60); WGive; WFlush 1000].
Definition stall_after (n : nat) : list wev :=
  [WTransport 7 (TPolled (RdData (repeat 65 (64 * 129))) WrPending); WNext (stall_clock 60); WGive;
   WTransport 7 (TPolled (RdData [66]) WrPending); WNext (stall_clock 60); WFlush n; WGive;
   WArrive (SData (amsg_encode (ack_msg 1 0))); WNext (stall_clock 61); WFlush n; WGive; stall_tick 79; WNext (stall_clock 79); WFlush n; WGive].

Definition on_some (P : wconn -> list cobs -> Prop) (x : option (wconn * list cobs)) : Prop :=
  match x with Some (q, h) => P q h | None => False end.

Lemma stall_left :
  exists (i : identity) (v : view) (es1 es2 : list wev) (q1 q2 q3 : wconn) (h1 h2 h3 : list cobs) (ping ack : amsg),
    wire_connection 0 i v v es1 = Some (q1, h1) /\ k_result (q_conn q1) = None /\ written_last ping (q_wire q1) /\
    m_payload ping = [0; 1; 0; 1] /\ m_payload ack = [0; 1; 0; 0; 0; 0; 0; 0] /\
    wire_connection 0 i v v (es1 ++ es2) = Some (q2, h2) /\ k_result (q_conn q2) = None /\
    reads (arrived (es1 ++ es2)) (map snd (received h2) ++ [ack]) [] /\
    wire_connection 0 i v v (es1 ++ es2 ++ [WTick (80 * SEC)%Z v v v]) = Some (q3, h3) /\
    last_ping 0 h3 = (60 * SEC)%Z /\ k_result (q_conn q3) = Some (Failed ConnectionError).
Proof.
  destruct (wire_connection 0 race_id view9 view9 stall_before) as [[q1 h1]|] eqn:E1; [|exfalso; revert E1; apply connection_total].
  destruct (wire_connection 0 race_id view9 view9 (stall_before ++ stall_after 0)) as [[q2 h2]|] eqn:E2; [|exfalso; revert E2; apply connection_total].
  destruct (wire_connection 0 race_id view9 view9 (stall_before ++ stall_after 0 ++ [stall_tick 80])) as [[q3 h3]|] eqn:E3; [|exfalso; revert E3; apply connection_total].
  exists race_id, view9, stall_before, (stall_after 0), q1, q2, q3, h1, h2, h3, (control_msg [0; 1; 0; 1]), (ack_msg 1 0).
  assert (A1 : on_some (fun q h => k_result (q_conn q) = None /\ skipn 120 (q_wire q) = frame_layout (control_msg [0; 1; 0; 1])) (wire_connection 0 race_id view9 view9 (stall_before))).
  { vm_compute. split; reflexivity. }
  rewrite E1 in A1. cbn [on_some] in A1.
  assert (A2 : on_some (fun q h => k_result (q_conn q) = None /\ map snd (received h) = [ack_msg 0 0; connect_msg 0]) (wire_connection 0 race_id view9 view9 (stall_before ++ stall_after 0))).
  { vm_compute. split; reflexivity. }
  rewrite E2 in A2. cbn [on_some] in A2.
  assert (A3 : on_some (fun q h => k_result (q_conn q) = Some (Failed ConnectionError) /\ last_ping 0 h = (60 * SEC)%Z) (wire_connection 0 race_id view9 view9 (stall_before ++ stall_after 0 ++ [stall_tick 80]))).
  { vm_compute. split; reflexivity. }
  rewrite E3 in A3. cbn [on_some] in A3.
  destruct A1 as [A1 A1'], A2 as [A2 A2'], A3 as [A3 A3'].
  split; [exact E1|]. split; [exact A1|]. split; [exists (firstn 120 (q_wire q1)); rewrite <- A1'; symmetry; apply firstn_skipn|].
  split; [reflexivity|]. split; [reflexivity|]. split; [exact E2|]. split; [exact A2|]. split.
  { rewrite A2'. cbn [app].
    eapply reads_frame; [vm_compute; reflexivity|]. eapply reads_frame; [vm_compute; reflexivity|]. eapply reads_frame; [vm_compute; reflexivity|]. constructor. }
  split; [exact E3|]. split; [exact A3'|exact A3].
Qed.
