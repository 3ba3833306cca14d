(** Proofs of C109-C113. *)
From Coq Require Import NArith ZArith List Bool Lia ZifyBool ZifyNat ZifyN.
From Verif.Model Require Import Bytes Frame Service Control Alist Session Manager Client Wire.
From Verif.Spec Require Import FrameSpec SessionSpec ManagerSpec ClientSpec WireSpec.
From Verif.Proofs Require Import BytesFacts FrameProofs FramePropsPf ClientInv ClientRun ClientPropsPf ClientPropsPf2
  WirePf WireRun EndToEnd.
Import ListNotations.
Local Open Scope N_scope.

(** ** C109 *)
Lemma wf_tail a b : wf_bytes (a ++ b) -> wf_bytes b.
Proof. intros H. apply Forall_app in H. apply H. Qed.

Lemma decode_rest_wf b m r : wf_bytes b -> amsg_decode b = DMsg m r -> wf_bytes r.
Proof.
  intros W D. rewrite (decode_eq_reading b W) in D.
  do 11 (destruct b as [|? b]; [discriminate|]). cbn [frame_reading] in D. destruct (_ =? 2); [|discriminate].
  cbv zeta in D. destruct (_ <? _); [discriminate|]. injection D as <- <-.
  do 11 (inversion W as [|? ? _ W']; subst; clear W; rename W' into W). unfold wf_bytes in *.
  rewrite <- (firstn_skipn (N.to_nat (n6 * 16777216 + n7 * 65536 + n8 * 256 + n9)) b) in W. apply Forall_app in W. apply W.
Qed.

Lemma parsed_reads b ms rest : wf_bytes b -> parsed b ms rest -> reads b ms rest /\ wf_bytes rest.
Proof.
  intros W H. induction H as [b|b m r ms rest D P IH]; [split; [constructor|exact W]|].
  pose proof (decode_rest_wf _ _ _ W D) as Wr. destruct (IH Wr) as [A B]. split; [|exact B].
  econstructor; [rewrite <- decode_eq_reading; eassumption|exact A].
Qed.

Lemma wire_frames t i v1 v2 es q h : wire_connection t i v1 v2 es = Some (q, h) -> wf_bytes (arrived es) ->
  exists rest, reads (arrived es) (map snd (received h)) rest.
Proof.
  intros H W. apply wire_connection_ok in H. destruct H as [_ P _ _]. eexists. apply (parsed_reads _ _ _ W P).
Qed.

Lemma wire_refines t i v1 v2 es q h : wire_connection t i v1 v2 es = Some (q, h) ->
  exists kes, connection t i v1 v2 kes = (q_conn q, h).
Proof. intros H. apply wire_connection_ok in H. apply H. Qed.

Lemma wire_snoc t i v1 v2 es e q h : wire_connection t i v1 v2 (es ++ [e]) = Some (q, h) ->
  exists q0 h0 o, wire_connection t i v1 v2 es = Some (q0, h0) /\ wire_step q0 e = Some (q, o) /\ h = h0 ++ o.
Proof.
  unfold wire_connection. destruct (conn_new t i v1 v2) as [k o0]. rewrite wire_run_snoc.
  destruct (wire_run _ es) as [[q1 o1]|]; [|discriminate].
  destruct (wire_step q1 e) as [[q2 o2]|] eqn:S; [|discriminate].
  intros E. injection E as <- <-. exists q1, (o0 ++ o1), o2. split; [reflexivity|]. split; [exact S|]. now rewrite app_assoc.
Qed.

Lemma wire_open t i v1 v2 es q h : wire_connection t i v1 v2 es = Some (q, h) -> k_result (q_conn q) = None ->
  is_closed (k_ctx (q_conn q)) = false.
Proof.
  intros H Kr. destruct (wire_refines _ _ _ _ _ _ _ H) as [kes A].
  destruct (running_full _ _ _ _ _ _ _ A Kr) as ((I & _ & _) & _). apply open_not_closed. exact (v_open _ _ _ _ _ I).
Qed.

Lemma wire_drained t i v1 v2 es clock q h : wire_connection t i v1 v2 (es ++ [WNext clock]) = Some (q, h) ->
  wf_bytes (arrived es) -> k_result (q_conn q) = None -> q_item q = None ->
  exists rest, reads (arrived es) (map snd (received h)) rest /\ frame_reading rest = DMore.
Proof.
  intros H W Kr Qi. pose proof (wire_connection_ok _ _ _ _ _ _ _ H) as [_ P _ _].
  rewrite arrived_app in P. cbn [arrived flat_map] in P. rewrite app_nil_r in P.
  destruct (parsed_reads _ _ _ W P) as [R Wr]. exists (rem (q_in q) (q_sock q)). split; [exact R|].
  rewrite <- (decode_eq_reading _ Wr).
  destruct (wire_snoc _ _ _ _ _ _ _ _ H) as (q0 & h0 & o & H0 & S & ->). cbn [wire_step] in S.
  destruct (k_result (q_conn q0)) eqn:K0; [injection S as <- <-; congruence|].
  destruct (q_item q0) eqn:Q0; [injection S as <- <-; congruence|].
  destruct (wire_poll clock (k_ctx (q_conn q0)) (q_in q0) (q_sock q0)) as [[[[[p c] o1] w] sock]|] eqn:Pl; [|discriminate].
  pose proof (wire_open _ _ _ _ _ _ _ H0 K0) as Nc.
  pose proof (wk_inv _ _ _ _ _ _ _ (wire_connection_ok _ _ _ _ _ _ _ H0) K0) as Wi.
  destruct (poll_rel _ _ _ _ _ _ _ _ _ Pl Nc Wi) as (items & _ & _ & _ & _ & P5).
  destruct p; injection S as <- <-; try discriminate. cbn [q_in q_sock]. destruct (P5 eq_refl) as [-> D].
  unfold rem. cbn [sock_bytes flat_map]. rewrite app_nil_r. exact D.
Qed.

(** ** C110 *)
Lemma frames_prefix msgs : Forall wf_amsg msgs -> forall w l, w ++ l = concat (map frame_layout msgs) ->
  exists n tail, w = concat (map frame_layout (firstn n msgs)) ++ tail /\ partial_frame tail.
Proof.
  induction 1 as [|m msgs Hm Hms IH]; intros w l E.
  - cbn in E. apply app_eq_nil in E as [-> _]. exists 0%nat, []. split; [reflexivity|apply nil_partial].
  - cbn [map concat] in E. destruct (Nat.le_gt_cases (length (frame_layout m)) (length w)) as [Hl|Hl].
    + assert (Ew : w = frame_layout m ++ skipn (length (frame_layout m)) w).
      { rewrite <- (firstn_skipn (length (frame_layout m)) w) at 1. f_equal.
        assert (Z := f_equal (firstn (length (frame_layout m))) E).
        rewrite firstn_app, (proj2 (Nat.sub_0_le _ _) Hl), app_nil_r in Z. rewrite Z.
        rewrite firstn_app, Nat.sub_diag, app_nil_r, firstn_all. reflexivity. }
      rewrite Ew, <- app_assoc in E. apply app_inv_head in E. destruct (IH _ _ E) as (n & tail & Es & Pt).
      exists (S n), tail. split; [|exact Pt]. rewrite Ew, Es. cbn [firstn map concat]. now rewrite app_assoc.
    + exists 0%nat, w. split; [reflexivity|]. exists m, (skipn (length w) (frame_layout m)). split; [exact Hm|]. split.
      * intros Z. apply (f_equal (@length N)) in Z. rewrite skipn_length in Z. cbn [length] in Z. unfold bytes in *. lia.
      * rewrite <- (firstn_skipn (length w) (frame_layout m)) at 1. f_equal.
        assert (Z := f_equal (firstn (length w)) E).
        rewrite firstn_app, Nat.sub_diag, app_nil_r, firstn_all, firstn_app in Z.
        replace (length w - length (frame_layout m))%nat with 0%nat in Z by lia. cbn [firstn] in Z. rewrite app_nil_r in Z. symmetry. exact Z.
Qed.

Lemma layouts msgs : Forall wf_amsg msgs -> concat (map amsg_encode msgs) = concat (map frame_layout msgs).
Proof. induction 1 as [|m l Hm _ IH]; [reflexivity|]. cbn [map concat]. now rewrite IH, (encode_layout m Hm). Qed.

Lemma wire_written t i v1 v2 es q h : wire_connection t i v1 v2 es = Some (q, h) -> Forall wf_amsg (sent h) ->
  (exists n tail, q_wire q = concat (map frame_layout (firstn n (sent h))) ++ tail /\ partial_frame tail) /\
  (q_item q = None -> q_buf q = [] -> q_wire q = concat (map frame_layout (sent h))).
Proof.
  intros H W. apply wire_connection_ok in H. destruct H as [_ _ _ D]. rewrite (layouts _ W) in D. split.
  - eapply frames_prefix; eauto.
  - intros Qi Qb. unfold pending_bytes in D. rewrite Qi, Qb in D. cbn [app] in D. now rewrite app_nil_r in D.
Qed.

(** ** C111, C112 *)
Lemma connection_e2e t i v1 v2 es k h : connection t i v1 v2 es = (k, h) ->
  (k_result k = None -> e2e (k_ctx k) h) /\ weak h.
Proof.
  revert k h. induction es as [|e es IH] using rev_ind; intros k h H.
  - unfold connection in H. destruct (conn_new t i v1 v2) as [k0 o0] eqn:N. cbn [conn_run] in H. injection H as <- <-. rewrite app_nil_r.
    assert (E : e2e (k_ctx k0) o0).
    { unfold conn_new, ctx_new in N. unfold c_next_id in N. cbn [next_id] in N.
      match type of N with context [set_mgr ?c0 ?g0] => set (c1 := set_mgr c0 g0) in N end.
      assert (E1 : e2e c1 []).
      { split.
        - intros sid. exists []. reflexivity.
        - intros _. split; [intros k s F; discriminate|]. intros sid. exists []. reflexivity.
        - constructor.
        - constructor. }
      destruct (mk_register _ _ _ _ _ _ _ _) as [m| |].
      - unfold send_unconfirmed in N. destruct (send_control t _ m) as [c2 o2] eqn:Sc. injection N as <- <-. cbn [k_ctx].
        unfold send_control in Sc. injection Sc as <- <-. rewrite <- (app_nil_l [XQueue t m]).
        apply (e2e_dull c1); [exact E1|repeat constructor|reflexivity|constructor|repeat constructor].
      - injection N as <- <-. cbn [k_ctx]. rewrite <- (app_nil_l (@nil cobs)). apply (e2e_dull c1); [exact E1|constructor|reflexivity|constructor|constructor].
      - injection N as <- <-. cbn [k_ctx]. rewrite <- (app_nil_l (@nil cobs)). apply (e2e_dull c1); [exact E1|constructor|reflexivity|constructor|constructor]. }
    split; [auto|]. eapply e2e_weak; eauto.
  - unfold connection in *. destruct (conn_new t i v1 v2) as [k0 o0] eqn:N. rewrite conn_run_snoc in H.
    destruct (conn_run k0 es) as [k1 o1] eqn:R. destruct (conn_step k1 e) as [k2 o2] eqn:S. injection H as <- <-.
    destruct (IH _ _ eq_refl) as [E1 W1]. clear IH. rewrite app_assoc. set (h1 := o0 ++ o1) in *.
    assert (Cn : connection t i v1 v2 es = (k1, h1)) by (unfold connection; rewrite N, R; reflexivity).
    clearbody h1. unfold conn_step in S. destruct (k_result k1) as [res|] eqn:Kr.
    { injection S as <- <-. rewrite app_nil_r. split; [congruence|exact W1]. }
    specialize (E1 eq_refl).
    assert (Nc : is_closed (k_ctx k1) = false).
    { destruct (running_full _ _ _ _ _ _ _ Cn Kr) as ((I & _ & _) & _). apply open_not_closed. exact (v_open _ _ _ _ _ I). }
    destruct e as [items|tt a b d| |sid te].
    + destruct (client_poll (k_ctx k1) items) as [[p c] o] eqn:P. pose proof (client_e2e _ _ _ _ _ _ E1 Nc P) as A.
      destruct p; injection S as <- <-; cbn [after_poll] in A; cbn [k_result k_ctx].
      * rewrite app_assoc. split; [auto|]. eapply e2e_weak; eauto.
      * split; [discriminate|exact A].
      * split; [discriminate|eapply e2e_weak; eauto].
      * split; [auto|eapply e2e_weak; eauto].
    + rewrite Nc in S. destruct (time_event tt (k_ctx k1) a b d) as [[r c] o] eqn:T.
      pose proof (tick_e2e _ _ _ _ _ _ _ _ _ E1 T) as A. injection S as <- <-. cbn [k_ctx]. split; [auto|eapply e2e_weak; eauto].
    + injection S as <- <-. rewrite app_nil_r. split; [discriminate|exact W1].
    + destruct (lift_mgr (k_ctx k1) (mgr_step (c_mgr (k_ctx k1)) (MTransport sid te))) as [c o] eqn:T.
      pose proof (transport_e2e _ _ _ _ _ _ E1 T) as A. injection S as <- <-. cbn [k_ctx]. split; [auto|eapply e2e_weak; eauto].
Qed.

Lemma delivered t i v1 v2 es k h sid : connection t i v1 v2 es = (k, h) ->
  starts_with_bytes (data_in sid h) (to_service sid h) /\
  (forall s, k_result k = None -> session k sid = Some s -> s_closed s = false -> data_in sid h = to_service sid h ++ s_output s).
Proof.
  intros H. destruct (connection_e2e _ _ _ _ _ _ _ H) as [E W]. split; [apply W|].
  intros s Kr Hs C. pose proof (e_in _ _ (E Kr) sid) as J. unfold session in Hs. rewrite Hs in J. destruct J as [_ J]. auto.
Qed.

Lemma collected t i v1 v2 es k h sid : connection t i v1 v2 es = (k, h) -> control_has_no_address h -> short_ids h ->
  starts_with_bytes (from_service sid h) (data_out sid h) /\
  (forall s, k_result k = None -> session k sid = Some s -> from_service sid h = data_out sid h ++ s_input s).
Proof.
  intros H O1 O2. destruct (connection_e2e _ _ _ _ _ _ _ H) as [E W]. assert (O : okh h) by (split; assumption).
  split; [apply W; exact O|].
  intros s Kr Hs. destruct (e_out _ _ (E Kr) O) as [_ J]. specialize (J sid). unfold session in Hs. rewrite Hs in J. exact J.
Qed.

(** ** C113 *)
Definition clean (w : framed) : Prop := f_eof w = false /\ f_errored w = false.

Lemma next_clean : forall sock w x w' sock', framed_next w sock = (x, w', sock') -> clean w -> Forall plain sock ->
  Forall plain sock' /\ match x with FEnd => False | FError => True | _ => clean w' end.
Proof.
  assert (D : forall w x w' sock, framed_decode w = Some (x, w') -> clean w -> Forall plain sock ->
    Forall plain sock /\ match x with FEnd => False | FError => True | _ => clean w' end).
  { intros w x w' sock E [C1 C2] F. split; [exact F|]. unfold framed_decode in E. rewrite C1, C2 in E. destruct (f_readable w); [|discriminate].
    destruct (amsg_decode (f_buf w)); try discriminate; injection E as <- <-; auto. split; reflexivity. }
  induction sock as [|r sock IH]; intros w x w' sock' H C F; cbn [framed_next] in H;
    (destruct (framed_decode w) as [[z v]|] eqn:Dc; [injection H as <- <- <-; eapply D; eauto|]).
  - injection H as <- <- <-. split; [constructor|]. destruct C as [C1 C2]. split; [exact C1|reflexivity].
  - inversion F as [|? ? Hr Fs]; subst. destruct r as [[|b0 b]|]; try contradiction.
    eapply IH; [exact H|split; reflexivity|exact Fs].
Qed.

Lemma loop_clean clock : forall fuel n c w sock p c' o w' sock',
  wire_loop fuel clock n c w sock = Some (p, c', o, w', sock') -> clean w -> Forall plain sock ->
  Forall plain sock' /\ (alive p -> clean w').
Proof.
  induction fuel as [|f IH]; intros n c w sock p c' o w' sock' H C F; [discriminate|]. cbn [wire_loop] in H.
  destruct (ctx_poll c) as [[p1 c1] o1]. destruct p1; try (injection H as <- <- <- <- <-; split; auto; fail).
  destruct (framed_next w sock) as [[x w1] sock1] eqn:Fn. destruct (next_clean _ _ _ _ _ Fn C F) as [F1 C1].
  destruct x; cbn [item_of] in H.
  - injection H as <- <- <- <- <-. auto.
  - destruct (feed_item c1 _) as [[r c2] o2]. destruct r; [injection H as <- <- <- <- <-; split; [exact F1|contradiction]|].
    destruct (wire_loop f clock (S n) c2 w1 sock1) as [[[[[? ?] ?] ?] ?]|] eqn:L; [|discriminate]. injection H as <- <- <- <- <-. eapply IH; eauto.
  - cbn [feed_item] in H. injection H as <- <- <- <- <-. split; [exact F1|contradiction].
  - contradiction.
Qed.

Lemma poll_clean clock c w sock p c' o w' sock' :
  wire_poll clock c w sock = Some (p, c', o, w', sock') -> clean w -> Forall plain sock ->
  Forall plain sock' /\ (alive p -> clean w').
Proof.
  unfold wire_poll. intros H C F. destruct (framed_next w sock) as [[x w1] sock1] eqn:Fn. destruct (next_clean _ _ _ _ _ Fn C F) as [F1 C1].
  generalize dependent (length (f_buf w) + length (sock_bytes sock) + 3)%nat. intros fuel H.
  destruct x; cbn [item_of] in H.
  - eapply loop_clean; eauto.
  - destruct (feed_item c _) as [[r c2] o2]. destruct r; [injection H as <- <- <- <- <-; split; [exact F1|contradiction]|].
    destruct (wire_loop fuel clock 1 c2 w1 sock1) as [[[[[? ?] ?] ?] ?]|] eqn:L; [|discriminate]. injection H as <- <- <- <- <-. eapply loop_clean; eauto.
  - cbn [feed_item] in H. injection H as <- <- <- <- <-. split; [exact F1|contradiction].
  - contradiction.
Qed.

Lemma run_clean t i v1 v2 es q h : wire_connection t i v1 v2 es = Some (q, h) -> Forall only_data es ->
  (k_result (q_conn q) = None -> Forall plain (q_sock q) /\ clean (q_in q)).
Proof.
  revert q h. induction es as [|e es IH] using rev_ind; intros q h H F Kr.
  - unfold wire_connection in H. destruct (conn_new t i v1 v2) as [k o]. cbn [wire_run] in H. injection H as <- <-. repeat split. constructor.
  - apply Forall_app in F as [F Fe]. inversion Fe as [|? ? He _]; subst.
    destruct (wire_snoc _ _ _ _ _ _ _ _ H) as (q0 & h0 & o & H0 & S & ->). specialize (IH _ _ H0 F).
    assert (Keep : forall k, q = with_conn q0 k -> (k_result k = None -> k_result (q_conn q0) = None) -> Forall plain (q_sock q) /\ clean (q_in q)).
    { intros k -> Hk. cbn [with_conn q_sock q_in q_conn] in *. auto. }
    destruct e as [r|clock| |n|tt a b d| |sid te]; cbn [wire_step] in S.
    + injection S as <- <-. cbn [q_conn q_sock q_in] in *. destruct (IH Kr) as [A B]. split; [apply Forall_app; split; [exact A|repeat constructor; exact He]|exact B].
    + destruct (k_result (q_conn q0)) eqn:K0; [injection S as <- <-; congruence|].
      destruct (q_item q0) eqn:Q0; [injection S as <- <-; auto|].
      destruct (wire_poll clock (k_ctx (q_conn q0)) (q_in q0) (q_sock q0)) as [[[[[p c] o1] w] sock]|] eqn:Pl; [|discriminate].
      destruct (IH eq_refl) as [A B]. destruct (poll_clean _ _ _ _ _ _ _ _ _ Pl B A) as [A' B'].
      destruct p; injection S as <- <-; try discriminate; cbn [q_sock q_in]; split; auto; apply B'; exact I.
    + destruct (q_item q0); [destruct (_ <? _)|]; injection S as <- <-; auto.
    + injection S as <- <-. auto.
    + destruct (conn_step (q_conn q0) (KTick tt a b d)) as [k o1] eqn:K. injection S as <- <-. apply (Keep k eq_refl).
      unfold conn_step in K. destruct (k_result (q_conn q0)) eqn:K0; [injection K as <- <-; congruence|auto].
    + destruct (conn_step (q_conn q0) KSinkFailed) as [k o1] eqn:K. injection S as <- <-. apply (Keep k eq_refl).
      unfold conn_step in K. destruct (k_result (q_conn q0)) eqn:K0; [injection K as <- <-; congruence|auto].
    + destruct (conn_step (q_conn q0) (KTransport sid te)) as [k o1] eqn:K. injection S as <- <-. apply (Keep k eq_refl).
      unfold conn_step in K. destruct (k_result (q_conn q0)) eqn:K0; [injection K as <- <-; congruence|auto].
Qed.

Lemma wire_app t i v1 v2 es e q h : wire_connection t i v1 v2 es = Some (q, h) ->
  wire_connection t i v1 v2 (es ++ [e]) = match wire_step q e with Some (q', o) => Some (q', h ++ o) | None => None end.
Proof.
  unfold wire_connection. destruct (conn_new t i v1 v2) as [k o0]. rewrite wire_run_snoc.
  destruct (wire_run _ es) as [[q1 o1]|]; [|discriminate]. intros E. injection E as <- <-.
  destruct (wire_step q1 e) as [[q2 o2]|]; [|reflexivity]. now rewrite app_assoc.
Qed.

Lemma parsed_length b ms rest : parsed b ms rest -> forall ms' rest', parsed b ms' rest' -> length ms = length ms' -> rest = rest'.
Proof.
  induction 1 as [b|b m r ms rest D P IH]; intros ms' rest' H' L.
  - destruct ms'; [|discriminate]. inversion H'; reflexivity.
  - destruct ms' as [|m' ms']; [discriminate|]. inversion H'; subst. apply (IH ms'); [|cbn in L; lia]. congruence.
Qed.

Lemma reads_parsed b ms rest : wf_bytes b -> reads b ms rest -> parsed b ms rest.
Proof.
  intros W H. induction H as [b|b m r ms rest D P IH]; [constructor|].
  rewrite <- (decode_eq_reading b W) in D. econstructor; [exact D|]. apply IH. eapply decode_rest_wf; eauto.
Qed.

(** The server's half of the connection ends after [es]: the stream says so once everything before it has been handled. *)
Lemma lost t i v1 v2 es q h rest r clock :
  wire_connection t i v1 v2 es = Some (q, h) -> wf_bytes (arrived es) -> Forall only_data es ->
  k_result (q_conn q) = None -> q_item q = None ->
  reads (arrived es) (map snd (received h)) rest -> frame_reading rest = DMore -> r = SData [] \/ r = SError ->
  exists q', wire_connection t i v1 v2 (es ++ [WArrive r; WNext clock]) = Some (q', h) /\
    k_result (q_conn q') = Some (Failed (match r, rest with SData [], [] => ConnectionError | _, _ => OtherError end)).
Proof.
  intros H W F Kr Qi R Dm Hr. pose proof (wire_connection_ok _ _ _ _ _ _ _ H) as [_ P _ _].
  assert (Er : rest = rem (q_in q) (q_sock q)) by (eapply parsed_length; [eapply reads_parsed; eauto|exact P|reflexivity]).
  assert (Wr : wf_bytes rest) by (rewrite Er; apply (parsed_reads _ _ _ W P)).
  destruct (run_clean _ _ _ _ _ _ _ H F Kr) as [Fs [C1 C2]].
  pose proof (wire_open _ _ _ _ _ _ _ H Kr) as Nc.
  (* what the framed stream does with the rest of the bytes and [r] *)
  assert (Next : forall sock w, clean w -> Forall plain sock -> amsg_decode (rem w sock) = DMore ->
    exists w' sock', framed_next w (sock ++ [r]) = (match r, rem w sock with SData [], [] => FEnd | _, _ => FError end, w', sock')).
  { induction sock as [|x sock IH]; intros w [E1 E2] Fp Dd.
    - unfold rem in *. cbn [sock_bytes flat_map] in *. rewrite app_nil_r in *.
      assert (framed_decode w = None) as Fd by (unfold framed_decode; rewrite E2, E1, Dd; destruct (f_readable w); reflexivity).
      cbn [app framed_next]. rewrite Fd. destruct Hr as [-> | ->].
      + rewrite E1. cbn [framed_next]. unfold framed_decode. cbn [f_errored f_readable f_eof f_buf]. rewrite Dd.
        destruct (f_buf w); eauto.
      + eauto.
    - inversion Fp as [|? ? Hx Fs']; subst. destruct x as [[|b0 b]|]; try contradiction.
      assert (R' : rem w (SData (b0 :: b) :: sock) = rem {| f_buf := f_buf w ++ b0 :: b; f_readable := true; f_eof := false; f_errored := false |} sock).
      { unfold rem. cbn [f_buf sock_bytes flat_map]. rewrite <- app_assoc. reflexivity. }
      cbn [app framed_next].
      assert (framed_decode w = None) as Fd.
      { unfold framed_decode. rewrite E2, E1. destruct (f_readable w); [|reflexivity].
        destruct (amsg_decode (f_buf w)) as [| | |m rr] eqn:Dw; [reflexivity| | |].
        - exfalso. unfold rem in Dd. pose proof (decode_err_app _ (sock_bytes (SData (b0 :: b) :: sock)) Dw). congruence.
        - exfalso. exact (decode_no_panic _ Dw).
        - exfalso. unfold rem in Dd. rewrite (decode_app _ _ _ _ Dw) in Dd. discriminate. }
      rewrite Fd, R'. apply IH; [split; reflexivity|exact Fs'|]. rewrite <- R'. exact Dd. }
  rewrite <- (decode_eq_reading _ Wr), Er in Dm.
  destruct (Next (q_sock q) (q_in q) (conj C1 C2) Fs Dm) as (w' & sock' & Fn).
  change (es ++ [WArrive r; WNext clock]) with (es ++ [WArrive r] ++ [WNext clock]). rewrite app_assoc.
  pose proof (wire_app _ _ _ _ _ (WArrive r) _ _ H) as H1. cbn [wire_step] in H1. rewrite app_nil_r in H1.
  pose proof (wire_app _ _ _ _ _ (WNext clock) _ _ H1) as H2. cbn [wire_step q_conn q_item q_in q_sock] in H2. rewrite Kr, Qi in H2.
  unfold wire_poll in H2. rewrite Fn in H2. rewrite <- Er in H2.
  assert (FE : item_of clock 0 FError = Some SFail) by reflexivity.
  assert (FN : item_of clock 0 FEnd = Some SEnd) by reflexivity.
  set (fuel := (length (f_buf (q_in q)) + length (sock_bytes (q_sock q ++ [r])) + 3)%nat) in H2.
  assert (Hfuel : exists n, fuel = S n) by (exists (length (f_buf (q_in q)) + length (sock_bytes (q_sock q ++ [r])) + 2)%nat; unfold fuel; lia).
  destruct Hfuel as [n Hfuel]. clearbody fuel. subst fuel.
  assert (Red : c_redirect (k_ctx (q_conn q)) = None).
  { unfold is_closed in Nc. destruct (c_redirect _); [|reflexivity]. rewrite orb_true_r in Nc. discriminate. }
  assert (Fail : match r, rest with SData [], [] => True | _, _ =>
    exists q', wire_connection t i v1 v2 ((es ++ [WArrive r]) ++ [WNext clock]) = Some (q', h) /\ k_result (q_conn q') = Some (Failed OtherError) end).
  { destruct Hr as [-> | ->]; destruct rest as [|x0 xs]; try exact I; cbn [item_of feed_item] in H2;
      rewrite H2; eexists; split; try (rewrite app_nil_r; reflexivity); reflexivity. }
  destruct Hr as [-> | ->]; destruct rest as [|x0 xs]; try exact Fail. clear Fail.
  cbn [item_of feed_item] in H2. cbn [wire_loop] in H2. unfold ctx_poll in H2.
  assert (Cl : is_closed (set_closed (k_ctx (q_conn q))) = true) by reflexivity. rewrite Cl in H2. cbn [app] in H2.
  rewrite H2. eexists. split; [rewrite app_nil_r; reflexivity|]. cbn [q_conn k_result]. unfold final_result.
  change (c_redirect (set_closed (k_ctx (q_conn q)))) with (c_redirect (k_ctx (q_conn q))). now rewrite Red.
Qed.

(** ** The ID of a session is 24 bits on the wire *)
Definition clash_events : list kev :=
  session_events 0 ++ [KPoll [SMsg 3 (env0 view9) (connect_msg 1)];
    KTransport (7 + 2 ^ 24) TConnected; KTransport (7 + 2 ^ 24) (TPolled (RdData [1; 2; 3]) WrPending); KPoll []].

Lemma clash_refuted :
  exists (i : identity) (v : view) (es : list kev) (k : conn) (h : list cobs) (sid : N),
    connection 0 i v v es = (k, h) /\ control_has_no_address h /\
    from_service sid h = [] /\ data_out sid h = [1; 2; 3] /\ ~ starts_with_bytes (from_service sid h) (data_out sid h).
Proof.
  exists race_id, view9, clash_events. destruct (connection 0 race_id view9 view9 clash_events) as [k h] eqn:E.
  exists k, h, 7. split; [reflexivity|].
  assert (H : h = snd (connection 0 race_id view9 view9 clash_events)) by (now rewrite E). vm_compute in H.
  split.
  { intros e m s Hi Hg. subst h. cbn [In] in Hi.
    repeat (destruct Hi as [Hi|Hi]; [try discriminate Hi; injection Hi as <- <-; discriminate Hg|]). contradiction. }
  assert (A : from_service 7 h = []) by (subst h; reflexivity).
  assert (B : data_out 7 h = [1; 2; 3]) by (subst h; reflexivity).
  split; [exact A|]. split; [exact B|]. rewrite A, B. intros [c Hc]. discriminate.
Qed.

(** The stream only has to accept enough. *)
Lemma wire_flushed t i v1 v2 es q h : wire_connection t i v1 v2 es = Some (q, h) -> Forall wf_amsg (sent h) ->
  exists k, forall n, (k <= n)%nat ->
    exists q', wire_connection t i v1 v2 (es ++ [WFlush n; WGive; WFlush n]) = Some (q', h) /\
      q_wire q' = concat (map frame_layout (sent h)).
Proof.
  intros E W.
  exists (length (q_buf q) + match q_item q with Some m => length (amsg_encode m) | None => 0 end)%nat. intros n Hn.
  assert (X : exists q', wire_connection t i v1 v2 (es ++ [WFlush n; WGive; WFlush n]) = Some (q', h) /\ q_item q' = None /\ q_buf q' = []).
  { replace (es ++ [WFlush n; WGive; WFlush n]) with (((es ++ [WFlush n]) ++ [WGive]) ++ [WFlush n]) by (rewrite <- !app_assoc; reflexivity).
    pose proof (wire_app t i v1 v2 es (WFlush n) q h E) as A1. cbn [wire_step] in A1. rewrite app_nil_r in A1.
    assert (S : skipn n (q_buf q) = []) by (apply skipn_all2; lia). rewrite S in A1.
    pose proof (wire_app _ _ _ _ _ WGive _ _ A1) as A2. cbn [wire_step q_item q_buf q_conn q_in q_sock q_wire] in A2.
    destruct (q_item q) as [m|].
    - change (nlen [] <? BACKPRESSURE_BOUNDARY) with true in A2. cbv iota in A2. rewrite app_nil_r in A2.
      pose proof (wire_app _ _ _ _ _ (WFlush n) _ _ A2) as A3. cbn [wire_step q_item q_buf q_conn q_in q_sock q_wire] in A3.
      rewrite app_nil_r in A3. eexists. split; [exact A3|]. cbn [q_item q_buf]. split; [reflexivity|]. apply skipn_all2. cbn [app]. lia.
    - rewrite app_nil_r in A2. pose proof (wire_app _ _ _ _ _ (WFlush n) _ _ A2) as A3. cbn [wire_step q_item q_buf q_conn q_in q_sock q_wire] in A3.
      rewrite app_nil_r in A3. eexists. split; [exact A3|]. cbn [q_item q_buf]. split; [reflexivity|]. now destruct n. }
  destruct X as (q' & X & I & B). exists q'. split; [exact X|]. now apply (wire_written _ _ _ _ _ _ _ X W).
Qed.
