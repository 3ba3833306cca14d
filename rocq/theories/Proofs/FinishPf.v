(** The end of `connect`. *)
From Coq Require Import NArith ZArith List Bool Lia ZifyBool ZifyNat ZifyN.
From Verif.Model Require Import Bytes Frame Service Control Alist Session Manager Client Wire MainTask Finish.
From Verif.Spec Require Import FrameSpec ControlSpec SessionSpec ManagerSpec ClientSpec WireSpec MainSpec FinishSpec.
From Verif.Proofs Require Import BytesFacts FrameProofs ControlProofs ClientInv ClientRun ClientPropsPf2 WirePf WireRun WireFinal.
Import ListNotations.
Local Open Scope Z_scope.

Lemma returned_stays es : forall s t r, n_phase s = EReturned t r -> ending_run s es = s.
Proof.
  induction es as [|e es IH]; intros s t r P; [reflexivity|]. unfold ending_run. cbn [fold_left].
  assert (E : ending_step s e = s) by (unfold ending_step; rewrite P; reflexivity). rewrite E. exact (IH _ _ _ P).
Qed.

Lemma run_cons s e es : ending_run s (e :: es) = ending_run (ending_step s e) es.
Proof. reflexivity. Qed.

Lemma run_app s a b : ending_run s (a ++ b) = ending_run (ending_run s a) b.
Proof. unfold ending_run. apply fold_left_app. Qed.

Lemma step_result s e : n_result (ending_step s e) = n_result s.
Proof.
  unfold ending_step, with_phase. destruct (n_phase s), e; try reflexivity.
  - destruct (n_buf s); reflexivity.
  - destruct (Z.leb until t); reflexivity.
Qed.

(** ** Closing: only the result of the connection *)
Lemma closing_result es : forall s u t r, n_phase s = EClosing u -> n_phase (ending_run s es) = EReturned t r -> r = n_result s.
Proof.
  induction es as [|e es IH]; intros s u t r P H; [cbn in H; congruence|]. rewrite run_cons in H.
  assert (D : (exists u', n_phase (ending_step s e) = EClosing u') \/ exists t', n_phase (ending_step s e) = EReturned t' (n_result s)).
  { unfold ending_step, with_phase. rewrite P. destruct e; cbn; eauto.
    - destruct (n_buf s); cbn; eauto.
    - destruct (Z.leb u t0); cbn; eauto. }
  destruct D as [[u' D]|[t' D]].
  - rewrite (IH _ _ _ _ D H). apply step_result.
  - rewrite (returned_stays _ _ _ _ D) in H. congruence.
Qed.

Lemma flushing_result es : forall s t r, n_phase s = EFlushing -> n_phase (ending_run s es) = EReturned t r ->
  r = n_result s \/ (r = Failed OtherError /\ broken_early (length (n_buf s)) es).
Proof.
  induction es as [|e es IH]; intros s t r P H; [cbn in H; congruence|]. rewrite run_cons in H.
  destruct e as [n t1|t1|t1|t1|t1].
  - destruct (skipn n (n_buf s)) as [|b0 b] eqn:R.
    + left. rewrite <- (step_result s (ESent n t1)). eapply closing_result; [|exact H].
      unfold ending_step. rewrite P. cbv zeta. rewrite R. reflexivity.
    + assert (P' : n_phase (ending_step s (ESent n t1)) = EFlushing) by (unfold ending_step; rewrite P; cbv zeta; rewrite R; reflexivity).
      assert (B' : n_buf (ending_step s (ESent n t1)) = b0 :: b) by (unfold ending_step; rewrite P; cbv zeta; rewrite R; reflexivity).
      assert (L : length (n_buf s) = (n + length (b0 :: b))%nat).
      { pose proof (skipn_length n (n_buf s)) as X. rewrite R in X. cbn [length] in *. lia. }
      destruct (IH _ _ _ P' H) as [->|[-> (es1 & tb & es2 & -> & W & A)]]; [left; apply step_result|right].
      split; [reflexivity|]. exists (ESent n t1 :: es1), tb, es2. split; [reflexivity|]. split; [exact W|]. right.
      cbn [accepted fold_right]. fold (accepted es1). rewrite B' in A. rewrite L. destruct A as [A|A]; [|lia].
      assert (Z0 : accepted es1 = 0%nat).
      { clear -A. induction es1 as [|x l IHl]; [reflexivity|]. cbn [was_sent existsb] in A. apply orb_false_iff in A as [A1 A2].
        cbn [accepted fold_right]. destruct x; try discriminate; exact (IHl A2). }
      rewrite Z0. cbn [length]. lia.
  - right. assert (P' : n_phase (ending_step s (EBroken t1)) = EReturned t1 (Failed OtherError)) by (unfold ending_step; rewrite P; reflexivity).
    rewrite (returned_stays _ _ _ _ P'), P' in H. injection H as _ <-. split; [reflexivity|]. exists [], t1, es. repeat split. left. reflexivity.
  - left. rewrite <- (step_result s (EWatch t1)). eapply closing_result; [|exact H]. unfold ending_step. rewrite P. reflexivity.
  - assert (E : ending_step s (EShut t1) = s) by (unfold ending_step; rewrite P; reflexivity). rewrite E in H.
    destruct (IH _ _ _ P H) as [->|[-> (es1 & tb & es2 & -> & W & A)]]; [left; reflexivity|right]. split; [reflexivity|].
    exists (EShut t1 :: es1), tb, es2. repeat split; [exact W|exact A].
  - assert (E : ending_step s (ETimer t1) = s) by (unfold ending_step; rewrite P; reflexivity). rewrite E in H.
    destruct (IH _ _ _ P H) as [->|[-> (es1 & tb & es2 & -> & W & A)]]; [left; reflexivity|right]. split; [reflexivity|].
    exists (ETimer t1 :: es1), tb, es2. repeat split; [exact W|exact A].
Qed.

(** ** Exactly the early write error changes the result *)
Lemma flushing_broken es : forall s, n_phase s = EFlushing -> broken_early (length (n_buf s)) es ->
  exists t, n_phase (ending_run s es) = EReturned t (Failed OtherError).
Proof.
  induction es as [|e es IH]; intros s P (es1 & tb & es2 & E & W & A); [destruct es1; discriminate|].
  destruct es1 as [|x es1]; injection E as -> ->.
  - exists tb. rewrite run_cons.
    assert (P' : n_phase (ending_step s (EBroken tb)) = EReturned tb (Failed OtherError)) by (unfold ending_step; rewrite P; reflexivity).
    rewrite (returned_stays _ _ _ _ P'). exact P'.
  - rewrite run_cons. cbn [was_watched existsb] in W. apply orb_false_iff in W as [Wx W].
    destruct x as [n t1|t1|t1|t1|t1]; try discriminate Wx.
    + destruct A as [A|A]; [discriminate|]. cbn [accepted fold_right] in A. fold (accepted es1) in A.
      apply IH.
      * unfold ending_step. rewrite P. cbv zeta. cbn [n_phase]. destruct (skipn n (n_buf s)) eqn:R; [|reflexivity].
        exfalso. pose proof (skipn_length n (n_buf s)) as X. rewrite R in X. cbn [length] in X. lia.
      * exists es1, tb, es2. repeat split; [exact W|]. right. unfold ending_step. rewrite P. cbv zeta. cbn [n_buf]. rewrite skipn_length. lia.
    + assert (P' : n_phase (ending_step s (EBroken t1)) = EReturned t1 (Failed OtherError)) by (unfold ending_step; rewrite P; reflexivity).
      exists t1. rewrite (returned_stays _ _ _ _ P'). exact P'.
    + assert (Es : ending_step s (EShut t1) = s) by (unfold ending_step; rewrite P; reflexivity). rewrite Es. apply IH; [exact P|].
      exists es1, tb, es2. repeat split; [exact W|exact A].
    + assert (Es : ending_step s (ETimer t1) = s) by (unfold ending_step; rewrite P; reflexivity). rewrite Es. apply IH; [exact P|].
      exists es1, tb, es2. repeat split; [exact W|exact A].
Qed.

(** ** Time *)
Definition by_then (T : Z) (s : ending) : Prop := match n_phase s with EClosing u => u <= T + CLOSE_TIMEOUT | _ => True end.

Lemma by_then_step T s e : eev_time e <= T -> by_then T s -> by_then T (ending_step s e).
Proof.
  intros L. unfold by_then, ending_step, with_phase.
  destruct (n_phase s) as [|u|tr r] eqn:P; destruct e as [n t1|t1|t1|t1|t1]; cbn [n_phase eev_time] in *; try rewrite P; try tauto.
  - intros _. destruct (skipn n (n_buf s)); [|exact I]. lia.
  - intros _. lia.
  - destruct (n_buf s); cbn [n_phase]; rewrite ?P; tauto.
  - destruct (Z.leb u t1); cbn [n_phase]; rewrite ?P; tauto.
Qed.

Lemma by_then_run T es : forall s, Forall (fun e => eev_time e <= T) es -> by_then T s -> by_then T (ending_run s es).
Proof.
  induction es as [|e es IH]; intros s F B; [exact B|]. inversion F; subst. rewrite run_cons. apply IH; [assumption|]. now apply by_then_step.
Qed.

Lemma closing_until es : forall s u, n_phase s = EClosing u ->
  n_phase (ending_run s es) = EClosing u \/ exists t, n_phase (ending_run s es) = EReturned t (n_result s).
Proof.
  induction es as [|e es IH]; intros s u P; [left; exact P|]. rewrite run_cons.
  assert (D : n_phase (ending_step s e) = EClosing u \/ exists t', n_phase (ending_step s e) = EReturned t' (n_result s)).
  { unfold ending_step, with_phase. rewrite P. destruct e; cbn; eauto.
    - destruct (n_buf s); cbn; eauto.
    - destruct (Z.leb u t); cbn; eauto. }
  destruct D as [D|[t' D]].
  - rewrite <- (step_result s e). apply IH. exact D.
  - right. exists t'. rewrite (returned_stays _ _ _ _ D). exact D.
Qed.

Lemma ends_in_time s es1 t1 es2 t2 es3 :
  (n_phase s = EFlushing \/ exists t r, n_phase s = EReturned t r) -> Forall (fun e => eev_time e <= t1) es1 -> t1 + 20 * SEC <= t2 ->
  exists t r, n_phase (ending_run s (es1 ++ EWatch t1 :: es2 ++ ETimer t2 :: es3)) = EReturned t r.
Proof.
  intros P F L. rewrite run_app, run_cons, run_app, run_cons.
  assert (B : by_then t1 (ending_run s es1)).
  { apply by_then_run; [exact F|]. unfold by_then. destruct P as [P|(t & r & P)]; rewrite P; exact I. }
  set (s1 := ending_run s es1) in *. clearbody s1.
  assert (D : (exists u, n_phase (ending_step s1 (EWatch t1)) = EClosing u /\ u <= t1 + CLOSE_TIMEOUT) \/
              exists t r, n_phase (ending_step s1 (EWatch t1)) = EReturned t r).
  { unfold by_then in B. unfold ending_step, with_phase. destruct (n_phase s1) eqn:P1; cbn [n_phase]; rewrite ?P1; eauto.
    left. eexists. split; [reflexivity|lia]. }
  destruct D as [(u & D & Lu)|(t & r & D)].
  - destruct (closing_until es2 _ _ D) as [D2|[t D2]].
    + assert (D3 : n_phase (ending_step (ending_run (ending_step s1 (EWatch t1)) es2) (ETimer t2))
                   = EReturned t2 (n_result (ending_run (ending_step s1 (EWatch t1)) es2))).
      { set (s2 := ending_run _ es2) in *. unfold ending_step. rewrite D2. unfold CLOSE_TIMEOUT in Lu.
        destruct (Z.leb_spec u t2); [reflexivity|lia]. }
      rewrite (returned_stays _ _ _ _ D3). eauto.
    + assert (D3 : ending_step (ending_run (ending_step s1 (EWatch t1)) es2) (ETimer t2) = ending_run (ending_step s1 (EWatch t1)) es2).
      { set (s2 := ending_run _ es2) in *. unfold ending_step. rewrite D2. reflexivity. }
      rewrite D3, (returned_stays _ _ _ _ D2). eauto.
  - rewrite (returned_stays es2 _ _ _ D).
    assert (D3 : ending_step (ending_step s1 (EWatch t1)) (ETimer t2) = ending_step s1 (EWatch t1)).
    { set (s2 := ending_step s1 (EWatch t1)) in *. clearbody s2. unfold ending_step. rewrite D. reflexivity. }
    rewrite D3, (returned_stays _ _ _ _ D). eauto.
Qed.

(** ** Bytes *)
Lemma step_bytes s e : n_wire (ending_step s e) ++ n_buf (ending_step s e) = n_wire s ++ n_buf s.
Proof.
  unfold ending_step, with_phase. destruct (n_phase s), e; cbn [n_wire n_buf]; try reflexivity.
  - rewrite <- app_assoc, firstn_skipn. reflexivity.
  - rewrite <- app_assoc, firstn_skipn. reflexivity.
  - destruct (n_buf s) eqn:B; cbn [n_wire n_buf]; rewrite ?B; reflexivity.
  - destruct (Z.leb until t); reflexivity.
Qed.

Lemma run_bytes es : forall s, n_wire (ending_run s es) ++ n_buf (ending_run s es) = n_wire s ++ n_buf s.
Proof. induction es as [|e es IH]; intros s; [reflexivity|]. rewrite run_cons, IH. apply step_bytes. Qed.

(** ** Connections *)
Lemma redirected t i v1 v2 es q h target : wire_connection t i v1 v2 es = Some (q, h) -> k_result (q_conn q) = Some (Redirected target) ->
  is_closed (k_ctx (q_conn q)) = true /\ q_item q = None.
Proof.
  revert q h. induction es as [|e es IH] using rev_ind; intros q h H Kr.
  - unfold wire_connection in H. destruct (conn_new t i v1 v2) as [k o] eqn:N. cbn [wire_run] in H. injection H as <- <-. cbn [q_conn] in Kr.
    unfold conn_new in N. destruct (ctx_new t i v1 v2) as [c1 o1]. injection N as <- <-. discriminate.
  - destruct (wire_snoc _ _ _ _ _ _ _ _ H) as (q0 & h0 & o & H0 & S & ->). specialize (IH _ _ H0).
    assert (Ev : forall ke k oo, (forall items, ke <> KPoll items) -> conn_step (q_conn q0) ke = (k, oo) -> q = with_conn q0 k ->
      is_closed (k_ctx (q_conn q)) = true /\ q_item q = None).
    { intros ke k oo Np C ->. cbn [with_conn q_conn q_item] in *. unfold conn_step in C.
      destruct (k_result (q_conn q0)) as [r|] eqn:K0; [injection C as <- <-; apply IH; congruence|].
      pose proof (wire_open _ _ _ _ _ _ _ H0 K0) as Nc.
      destruct ke as [items|tt a b d| |sid te].
      - exfalso. exact (Np _ eq_refl).
      - rewrite Nc in C. destruct (time_event tt (k_ctx (q_conn q0)) a b d) as [[r c1] o1]. injection C as <- <-. cbn [k_result] in Kr. destruct r; discriminate.
      - injection C as <- <-. discriminate.
      - destruct (lift_mgr _ _) as [c1 o1]. injection C as <- <-. discriminate. }
    destruct e as [r|clock| |n|tt a b d| |sid te]; cbn [wire_step] in S.
    + injection S as <- <-. exact (IH Kr).
    + destruct (k_result (q_conn q0)) eqn:K0; [injection S as <- <-; apply IH; congruence|].
      destruct (q_item q0) eqn:Q0; [injection S as <- <-; congruence|].
      destruct (wire_poll clock (k_ctx (q_conn q0)) (q_in q0) (q_sock q0)) as [[[[[p c] o1] w] sock]|]; [|discriminate].
      destruct p; injection S as <- <-; cbn [q_conn k_result k_ctx q_item] in *; try discriminate. split; [|reflexivity].
      unfold final_result in Kr. unfold is_closed. destruct (c_redirect c); [apply orb_true_r|discriminate].
    + destruct (q_item q0) eqn:Q0.
      * assert (X : q_conn q = q_conn q0) by (destruct (_ <? _)%N; injection S as <- <-; reflexivity). rewrite X in Kr. destruct (IH Kr) as [_ B]. congruence.
      * injection S as <- <-. destruct (IH Kr) as [A B]. auto.
    + injection S as <- <-. exact (IH Kr).
    + destruct (conn_step (q_conn q0) (KTick tt a b d)) as [k oo] eqn:C. injection S as <- <-. eapply Ev; [|exact C|reflexivity]. discriminate.
    + destruct (conn_step (q_conn q0) KSinkFailed) as [k oo] eqn:C. injection S as <- <-. eapply Ev; [|exact C|reflexivity]. discriminate.
    + destruct (conn_step (q_conn q0) (KTransport sid te)) as [k oo] eqn:C. injection S as <- <-. eapply Ev; [|exact C|reflexivity]. discriminate.
Qed.

Lemma redirect_result t i v1 v2 es q h target T s es' t' r :
  wire_connection t i v1 v2 es = Some (q, h) -> k_result (q_conn q) = Some (Redirected target) -> ending_new T q = Some s ->
  n_phase (ending_run s es') = EReturned t' r ->
  (broken_early (length (q_buf q)) es' /\ r = Failed OtherError) \/ (~ broken_early (length (q_buf q)) es' /\ r = Redirected target).
Proof.
  intros H Kr N R. destruct (redirected _ _ _ _ _ _ _ _ H Kr) as [C _]. unfold ending_new in N. rewrite Kr, C in N. injection N as <-.
  match type of R with n_phase (ending_run ?x _) = _ => set (s := x) in * end.
  assert (P : n_phase s = EFlushing) by reflexivity. assert (L : n_buf s = q_buf q) by reflexivity. assert (Rs : n_result s = Redirected target) by reflexivity.
  clearbody s. rewrite <- L.
  destruct (flushing_result _ _ _ _ P R) as [E|[E B]]; [right|left; auto].
  split; [|congruence]. intros B. destruct (flushing_broken _ _ P B) as [tb X]. congruence.
Qed.

Lemma returns t i v1 v2 es q h T s es1 t1 es2 t2 es3 :
  wire_connection t i v1 v2 es = Some (q, h) -> ending_new T q = Some s ->
  Forall (fun e => eev_time e <= t1) es1 -> t1 + 20 * SEC <= t2 ->
  exists t' r, n_phase (ending_run s (es1 ++ EWatch t1 :: es2 ++ ETimer t2 :: es3)) = EReturned t' r.
Proof.
  intros H N F L. apply ends_in_time; try assumption. unfold ending_new in N. destruct (k_result (q_conn q)) as [r|]; [|discriminate].
  injection N as <-. cbn [n_phase]. destruct (is_closed _); eauto.
Qed.

Lemma all_written t i v1 v2 es q h target T s es' :
  wire_connection t i v1 v2 es = Some (q, h) -> Forall wf_amsg (sent h) -> k_result (q_conn q) = Some (Redirected target) -> ending_new T q = Some s ->
  n_buf (ending_run s es') = [] -> n_wire (ending_run s es') = concat (map frame_layout (sent h)).
Proof.
  intros H W Kr N B. destruct (redirected _ _ _ _ _ _ _ _ H Kr) as [C Qi]. unfold ending_new in N. rewrite Kr, C in N. injection N as <-.
  match type of B with n_buf (ending_run ?x _) = _ => pose proof (run_bytes es' x) as E end. rewrite B, app_nil_r in E. rewrite E. cbn [n_wire n_buf].
  destruct (wire_connection_ok _ _ _ _ _ _ _ H) as [_ _ _ D]. rewrite (layouts _ W) in D. unfold pending_bytes in D. rewrite Qi, app_nil_r in D. exact D.
Qed.

(** ** Examples *)
Definition fin_clock (d : bool) : nat -> Z * env :=
  fun _ => (1, {| e_table := view9; e_scanning := false; e_diagnostic := d; e_hosts := []; e_services := []; e_get_id := fun _ => None |}).
(** Registered; the server sends PING and REDIRECT to "a:1"; the ACK of the PING is in the sink. *)
Definition fin_wire : list wev :=
  [WNext (fin_clock false); WGive; WFlush (10 * 100); WArrive (SData (amsg_encode (ack_msg 0 0))); WNext (fin_clock false);
   WArrive (SData (amsg_encode (control_msg [0; 9; 0; 1]%N) ++ amsg_encode (control_msg [0; 11; 0; 3; 97; 58; 49; 0]%N)));
   WNext (fin_clock false); WGive; WNext (fin_clock false)].
(** Diagnostic mode: the server acknowledges REGISTER before it has taken all of it. *)
Definition fin_diag : list wev :=
  [WNext (fin_clock true); WGive; WFlush 100; WArrive (SData (amsg_encode (ack_msg 0 0))); WNext (fin_clock true)].

Definition ended_as (es : list wev) (P : wconn -> list cobs -> ending -> Prop) : Prop :=
  match wire_connection 0 race_id view9 view9 es with
  | Some (q, h) => match ending_new 2 q with Some s => P q h s | None => False end
  | None => False
  end.

Lemma ended_some es P : ended_as es P -> exists q h s, wire_connection 0 race_id view9 view9 es = Some (q, h) /\ ending_new 2 q = Some s /\ P q h s.
Proof.
  unfold ended_as. destruct (wire_connection 0 race_id view9 view9 es) as [[q h]|]; [|contradiction].
  destruct (ending_new 2 q) as [s|] eqn:E; [|contradiction]. intros X. exists q, h, s. auto.
Qed.

Lemma fin_text : utf8_text [97; 58; 49]%N.
Proof. apply ControlProofs.utf8_valid_text. reflexivity. Qed.

Lemma other_error (mt : mtask) (next : Z) : mt_diag mt = false -> 3 + SEC < mt_last mt + 60 * SEC ->
  mt_current (fst (process_result mt (Failed OtherError) 3 next)) = mt_default mt /\
  mt_phase (fst (process_result mt (Failed OtherError) 3 next)) = PWait (mt_last mt + 60 * SEC).
Proof.
  intros D L.
  unfold process_result. rewrite D. destruct (set_state mt Disconnected) as [m1 o1] eqn:St.
  unfold set_state in St.
  assert (E : mt_default m1 = mt_default mt /\ mt_last m1 = mt_last mt) by (destruct (cstate_eqb Disconnected (mt_state mt)); injection St as <- <-; split; reflexivity).
  destruct E as [E1 E2]. unfold process_connection_error. cbn [set_current mt_last].
  change (mt_last (set_current m1 (mt_default m1))) with (mt_last m1). rewrite E2. unfold RETRY_TIMEOUT, SEC in *.
  destruct (Z.ltb_spec 3 (mt_last mt + 60 * 1000000000)); [|lia].
  destruct (Z.ltb_spec 500000000 (mt_last mt + 60 * 1000000000 - 3)); [|lia]. cbn [fst]. split; [exact E1|].
  cbn [set_phase mt_phase]. f_equal. lia.
Qed.

Lemma lost_redirect :
  exists (i : identity) (v : view) (es : list wev) (q : wconn) (h h1 : list cobs) (s : ending) (e : env) (m : amsg) (id : N) (target : bytes) (t' : Z),
    wire_connection 0 i v v es = Some (q, h) /\ h = h1 ++ [XRecv e m] /\ registered h1 = true /\
    server_says m {| cm_id := id; cm_type := 3; cm_body := BRedirect target |} /\
    ending_new 2 q = Some s /\ n_phase (ending_run s [EBroken t']) = EReturned t' (Failed OtherError) /\
    forall (mt : mtask) (next : Z), mt_diag mt = false -> t' + SEC < mt_last mt + 60 * SEC ->
      mt_current (fst (process_result mt (Failed OtherError) t' next)) = mt_default mt /\
      mt_phase (fst (process_result mt (Failed OtherError) t' next)) = PWait (mt_last mt + 60 * SEC).
Proof.
  assert (X : ended_as fin_wire (fun q h s =>
    h = removelast h ++ [XRecv (snd (fin_clock false 0%nat)) (control_msg [0; 11; 0; 3; 97; 58; 49; 0]%N)] /\ registered (removelast h) = true /\
    n_phase (ending_run s [EBroken 3]) = EReturned 3 (Failed OtherError))).
  { vm_compute. repeat split. }
  destruct (ended_some _ _ X) as (q & h & s & A & B & C1 & C2 & C3).
  exists race_id, view9, fin_wire, q, h, (removelast h), s, (snd (fin_clock false 0%nat)), (control_msg [0; 11; 0; 3; 97; 58; 49; 0]%N), 11%N, [97; 58; 49]%N, 3.
  split; [exact A|]. split; [exact C1|]. split; [exact C2|]. split.
  { split; [reflexivity|]. exact (SM_redirect 11 [97; 58; 49]%N eq_refl fin_text). }
  split; [exact B|]. split; [exact C3|]. intros mt next D L. exact (other_error mt next D L).
Qed.

Lemma lost_redirect_short :
  exists (i : identity) (v : view) (es : list wev) (q : wconn) (h h1 : list cobs) (s : ending) (e : env) (m : amsg) (id : N) (target : bytes) (t' : Z),
    wire_connection 0 i v v es = Some (q, h) /\ h = h1 ++ [XRecv e m] /\ registered h1 = true /\
    server_says m {| cm_id := id; cm_type := 3; cm_body := BRedirect target |} /\
    ending_new 2 q = Some s /\ n_phase (ending_run s [EBroken t']) = EReturned t' (Failed OtherError).
Proof.
  destruct lost_redirect as (i & v & es & q & h & h1 & s & e & m & id & target & t' & A & B & C & D & E & F & _).
  exists i, v, es, q, h, h1, s, e, m, id, target, t'. exact (conj A (conj B (conj C (conj D (conj E F))))).
Qed.

Lemma lost_verdict :
  exists (i : identity) (v : view) (es : list wev) (q : wconn) (h : list cobs) (s : ending) (t' : Z) (r : cresult),
    wire_connection 0 i v v es = Some (q, h) /\ Forall (fun x => e_diagnostic (fst x) = true) (received h) /\ service_verdict h = Some 0%N /\
    ending_new 2 q = Some s /\ n_phase (ending_run s [EBroken t']) = EReturned t' r /\ diagnose r = 1%N.
Proof.
  assert (X : ended_as fin_diag (fun q h s =>
    Forall (fun x => e_diagnostic (fst x) = true) (received h) /\ service_verdict h = Some 0%N /\
    n_phase (ending_run s [EBroken 3]) = EReturned 3 (Failed OtherError))).
  { vm_compute. repeat constructor. }
  destruct (ended_some _ _ X) as (q & h & s & A & B & C1 & C2 & C3).
  exists race_id, view9, fin_diag, q, h, s, 3, (Failed OtherError).
  exact (conj A (conj C1 (conj C2 (conj B (conj C3 eq_refl))))).
Qed.

Lemma as_broken m k now next : mt_phase m = POnline k -> k_result k = None ->
  mtask_step m (EvConn KSinkFailed now next) = process_result m (Failed OtherError) now next.
Proof.
  intros P K. unfold mtask_step. rewrite P. unfold conn_step. rewrite K. cbn [k_result].
  destruct (process_result m (Failed OtherError) now next) as [m1 o1]. reflexivity.
Qed.

(** ** The server has 20 seconds to take what was sent *)
Lemma given_time T es : forall s, Forall (fun e => T <= eev_time e < T + 20 * SEC) es -> Forall (fun e => match e with EBroken _ => False | _ => True end) es ->
  match n_phase s with EFlushing => True | EClosing u => T + 20 * SEC <= u | EReturned _ _ => n_buf s = [] end ->
  n_buf (ending_run s es) = skipn (accepted es) (n_buf s).
Proof.
  induction es as [|e es IH]; intros s F B I; [reflexivity|]. inversion F as [|? ? Ht F']; subst. inversion B as [|? ? Hb B']; subst.
  rewrite run_cons. rewrite IH; [|exact F'|exact B'|].
  - destruct (n_phase s) as [|u|tr r] eqn:P.
    + destruct e as [n t1|t1|t1|t1|t1]; cbn [accepted fold_right]; fold (accepted es); try (unfold ending_step, with_phase; rewrite P; reflexivity).
      unfold ending_step. rewrite P. cbv zeta. cbn [n_buf]. rewrite skipn_skipn'. reflexivity.
    + destruct e as [n t1|t1|t1|t1|t1]; cbn [accepted fold_right]; fold (accepted es); try (unfold ending_step, with_phase; rewrite P; reflexivity).
      * unfold ending_step. rewrite P. cbn [n_buf]. rewrite skipn_skipn'. reflexivity.
      * unfold ending_step, with_phase. rewrite P. destruct (n_buf s) eqn:E; cbn [n_buf]; rewrite ?E; reflexivity.
      * unfold ending_step, with_phase. rewrite P. destruct (Z.leb u t1); reflexivity.
    + assert (E : ending_step s e = s) by (unfold ending_step; rewrite P; reflexivity). rewrite E, I. now rewrite !skipn_nil.
  - destruct (n_phase s) as [|u|tr r] eqn:P; destruct e as [n t1|t1|t1|t1|t1]; cbn [eev_time] in Ht; try contradiction;
      unfold ending_step, with_phase, CLOSE_TIMEOUT; rewrite P; cbv zeta; cbn [n_phase n_buf]; try rewrite P; try exact I.
    + destruct (skipn n (n_buf s)); cbn [n_phase]; [lia|exact Coq.Init.Logic.I].
    + lia.
    + destruct (n_buf s) eqn:E; cbn [n_phase n_buf]; [reflexivity|rewrite P; exact I].
    + destruct (Z.leb_spec u t1); [lia|]. rewrite P. exact I.
Qed.

Lemma redirect_written t i v1 v2 es q h target T s es' :
  wire_connection t i v1 v2 es = Some (q, h) -> Forall wf_amsg (sent h) -> k_result (q_conn q) = Some (Redirected target) -> ending_new T q = Some s ->
  Forall (fun e => T <= eev_time e < T + 20 * SEC) es' -> Forall (fun e => match e with EBroken _ => False | _ => True end) es' ->
  (length (q_buf q) <= accepted es')%nat -> n_wire (ending_run s es') = concat (map frame_layout (sent h)).
Proof.
  intros H W Kr N F B L. eapply all_written; eauto. destruct (redirected _ _ _ _ _ _ _ _ H Kr) as [C _]. unfold ending_new in N. rewrite Kr, C in N. injection N as <-.
  rewrite (given_time T); [|exact F|exact B|exact I]. apply skipn_all2. exact L.
Qed.
