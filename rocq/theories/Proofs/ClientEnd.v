(** The end of a connection: what happens to its sessions. *)
From Coq Require Import NArith ZArith List Bool Lia ZifyBool ZifyNat ZifyN.
From Verif.Model Require Import Bytes Frame Service Control Alist Session Manager Client.
From Verif.Spec Require Import ControlSpec SessionSpec ManagerSpec ClientSpec.
From Verif.Proofs Require Import BytesFacts ControlProofs AlistFacts SessionProofs SessionPropsPf ManagerProofs ManagerPropsPf ManagerPropsPf2
  ClientProofs ClientInv ClientRun ClientPropsPf ClientPropsPf2.
Import ListNotations.
Local Open Scope N_scope.

(** [g'] is reached from [g] by steps of the session manager. *)
Definition mpath (g g' : mgr) : Prop := exists mes, fst (mgr_run g mes) = g'.
Lemma mpath_refl g : mpath g g.
Proof. now exists []. Qed.
Lemma mpath_trans a b c : mpath a b -> mpath b c -> mpath a c.
Proof.
  intros [l1 <-] [l2 <-]. exists (l1 ++ l2). revert a. induction l1 as [|e l1 IH]; intros a; [reflexivity|].
  cbn [app mgr_run]. destruct (mgr_step a e) as [g o]. specialize (IH g). destruct (mgr_run g (l1 ++ l2)), (mgr_run g l1). exact IH.
Qed.
Lemma mpath_step g e : mpath g (fst (mgr_step g e)).
Proof. exists [e]. cbn [mgr_run]. destruct (mgr_step g e). reflexivity. Qed.
Lemma mpath_ids g f : mpath g (set_factory g f).
Proof. exact (mpath_step g (MIds f)). Qed.
Definition cpath (c c' : ctx) : Prop := mpath (c_mgr c) (c_mgr c').
Lemma cpath_trans a b c : cpath a b -> cpath b c -> cpath a c.
Proof. apply mpath_trans. Qed.

Lemma cpath_same c c' : c_mgr c' = c_mgr c -> cpath c c'.
Proof. unfold cpath. intros ->. apply mpath_refl. Qed.
Lemma send_control_mgr t c m : c_mgr (fst (send_control t c m)) = c_mgr c.
Proof. unfold send_control. cbv zeta. cbn [fst]. destruct (c_task _); reflexivity. Qed.
Lemma handled_path t e c m r c' o : handled t e c m r c' o -> cpath c c'.
Proof.
  intros [Ha Hb|id code Ha Hb|id code t1 x rest Ha Hb Hc|id code t1 rest Ha Hb Hc|id code t1 rest r' c1 Ha Hb Hc Hd
                   |me g ob Ha Hb Hc Hd He|q a c1 Ha Hb Hc Hd|id target Ha Hb Hc Hd He|cmd id ty Ha Hb Hc Hd He Hf];
    try (apply cpath_same; reflexivity).
  - rewrite handshake_cases in Hd. destruct (code =? 0); injection Hd as <- <-; [|apply cpath_same; reflexivity].
    destruct (e_diagnostic e); apply cpath_same; reflexivity.
  - unfold cpath. csimp. pose proof (mpath_step (c_mgr c) me) as X. rewrite He in X. exact X.
  - unfold cpath. rewrite send_control_mgr. unfold answer_to, c_next_id in Hd. cbn [next_id] in Hd.
    destruct q; injection Hd as <- <-; [apply mpath_refl|apply mpath_ids|apply mpath_ids].
  - apply cpath_same. unfold redirected. csimp. destruct (c_task c); reflexivity.
Qed.

Lemma feed_path c it r c' o : feed_item c it = (r, c', o) -> cpath c c'.
Proof.
  destruct it as [t e m| |]; cbn [feed_item]; intros H.
  - destruct (is_closed c) eqn:Ec.
    + unfold process_message in H. rewrite Ec in H. injection H as <- <- <-. apply mpath_refl.
    + apply process_handled in H as (o' & -> & Hd); [|exact Ec]. eapply handled_path; eauto.
  - injection H as <- <- <-. apply mpath_refl.
  - injection H as <- <- <-. apply cpath_same. reflexivity.
Qed.
Lemma poll_path c p c' o : ctx_poll c = (p, c', o) -> cpath c c'.
Proof.
  unfold ctx_poll. destruct (is_closed c); [intros [= <- <- _]; apply mpath_refl|]. destruct (c_messages c).
  - pose proof (mpath_step (c_mgr c) MPoll) as X. cbn [mgr_step] in X. destruct (mgr_poll (c_mgr c)) as [g ob]. cbn [fst] in X.
    destruct (polled_msg ob); intros [= <- <- _]; exact X.
  - intros [= <- <- _]. apply cpath_same. reflexivity.
Qed.
Lemma loop_path items : forall c p c' o, client_loop c items = (p, c', o) -> cpath c c'.
Proof.
  induction items as [|it items IH]; intros c p c' o; cbn [client_loop];
    destruct (ctx_poll c) as [[p1 c1] o1] eqn:Ep; pose proof (poll_path _ _ _ _ Ep) as P1; destruct p1; try (intros [= <- <- <-]; exact P1).
  destruct (feed_item c1 it) as [[r c2] o2] eqn:Ef. pose proof (feed_path _ _ _ _ _ Ef) as P2. destruct r.
  - intros [= <- <- <-]. eapply cpath_trans; eauto.
  - destruct (client_loop c2 items) as [[p3 c3] o3] eqn:El. pose proof (IH _ _ _ _ El) as P3.
    intros [= <- <- <-]. eapply cpath_trans; [|exact P3]. eapply cpath_trans; eauto.
Qed.

Lemma tick_path t c a b d r c' o : time_event t c a b d = (r, c', o) -> cpath c c'.
Proof.
  unfold time_event. destruct (c_established c); [|intros [= <- <- <-]; apply mpath_refl].
  assert (H1 : cpath c (fst (if (PING_PERIOD <=? t - c_last_ping c)%Z then send_ping t c else (c, [])))).
  { destruct (_ <=? _)%Z; [|apply mpath_refl]. unfold send_ping, c_next_id. cbn [next_id]. unfold send_unconfirmed.
    destruct (send_control _ _ _) as [c2 o2] eqn:E. cbn [fst]. apply (f_equal fst) in E. cbn [fst] in E. subst c2.
    unfold cpath. csimp. rewrite send_control_mgr. csimp. apply mpath_ids. }
  destruct (if (PING_PERIOD <=? t - c_last_ping c)%Z then send_ping t c else (c, [])) as [c1 o1]. cbn [fst] in H1.
  assert (H2 : cpath c1 (fst (if (UPDATE_CHECK_PERIOD <=? t - c_last_check c1)%Z then check_for_updates t c1 a b d else (c1, [])))).
  { destruct (_ <=? _)%Z; [|apply mpath_refl]. unfold check_for_updates. destruct (_ =? _); [apply cpath_same; reflexivity|].
    unfold send_update, c_next_id. cbn [next_id]. destruct (send_control _ _ _) as [c2 o2] eqn:E. cbn [fst].
    apply (f_equal fst) in E. cbn [fst] in E. subst c2. unfold cpath. csimp. rewrite send_control_mgr. csimp. apply mpath_ids. }
  destruct (if (UPDATE_CHECK_PERIOD <=? t - c_last_check c1)%Z then check_for_updates t c1 a b d else (c1, [])) as [c2 o2]. cbn [fst] in H2.
  intros [= <- <- <-]. eapply cpath_trans; eauto.
Qed.

Lemma step_path k e : cpath (k_ctx k) (k_ctx (fst (conn_step k e))).
Proof.
  unfold conn_step. destruct (k_result k); [apply mpath_refl|]. destruct e as [items|t a b d| |sid te].
  - destruct (client_poll (k_ctx k) items) as [[p c1] o] eqn:E. assert (X : cpath (k_ctx k) c1); [|destruct p; exact X].
    destruct items as [|it items]; cbn [client_poll] in E; [eapply loop_path; eauto|].
    destruct (feed_item (k_ctx k) it) as [[r c2] o2] eqn:Ef. pose proof (feed_path _ _ _ _ _ Ef) as P. destruct r.
    + injection E as <- <- <-. exact P.
    + destruct (client_loop c2 items) as [[p3 c3] o3] eqn:El. injection E as <- <- <-. eapply cpath_trans; [exact P|eapply loop_path; eauto].
  - destruct (is_closed (k_ctx k)); [apply mpath_refl|]. destruct (time_event t (k_ctx k) a b d) as [[r c1] o] eqn:E.
    eapply tick_path; eauto.
  - apply mpath_refl.
  - pose proof (mpath_step (c_mgr (k_ctx k)) (MTransport sid te)) as X. unfold lift_mgr.
    destruct (mgr_step (c_mgr (k_ctx k)) (MTransport sid te)) as [g ob]. exact X.
Qed.
Lemma run_path es : forall k, cpath (k_ctx k) (k_ctx (fst (conn_run k es))).
Proof.
  induction es as [|e es IH]; intros k; [apply mpath_refl|]. cbn [conn_run]. pose proof (step_path k e) as X.
  destruct (conn_step k e) as [k1 o1]. specialize (IH k1). destruct (conn_run k1 es) as [k2 o2]. cbn [fst] in *. eapply cpath_trans; eauto.
Qed.

Lemma connection_path t0 i v1 v2 es k h :
  connection t0 i v1 v2 es = (k, h) -> exists mes, c_mgr (k_ctx k) = fst (mgr_run (mgr_new 65536 (id_gateway i) 0) mes).
Proof.
  unfold connection, conn_new. destruct (ctx_new t0 i v1 v2) as [c o] eqn:E. pose proof (run_path es {| k_ctx := c; k_result := None |}) as X.
  destruct (conn_run _ es) as [k' o'] eqn:Er. intros [= <- <-]. cbn [fst k_ctx] in X.
  assert (Y : mpath (mgr_new 65536 (id_gateway i) 0) (c_mgr c)).
  { unfold ctx_new, c_next_id in E. cbn [next_id] in E. destruct (mk_register _ _ _ _ _ _ _ _).
    - unfold send_unconfirmed in E. apply (f_equal fst) in E. cbn [fst] in E. subst c. rewrite send_control_mgr. csimp. apply mpath_ids.
    - injection E as <- <-. apply mpath_ids.
    - injection E as <- <-. apply mpath_ids. }
  destruct (mpath_trans _ _ _ Y X) as [mes <-]. now exists mes.
Qed.

(** After the end of a connection every session's transport ends with its next poll, and it is polled. *)
Lemma sessions_end t0 i v1 v2 es k h sid s :
  connection t0 i v1 v2 es = (k, h) -> find_sess (c_mgr (k_ctx k)) sid = Some s ->
  exists s', In (sid, s') (mgr_drop (c_mgr (k_ctx k))) /\ s_phase s' = s_phase s /\
    (s_phase s' = TRunning -> s_tr_run s' = true) /\
    (s_phase s' = TRunning -> forall r w, s_phase (fst (sess_step s' (ETransport r w))) = TDone /\ snd (sess_step s' (ETransport r w)) = []) /\
    (s_phase s' = TConnecting -> forall r w, s_phase (fst (sess_run s' [EConnected; ETransport r w])) = TDone /\
                                        snd (sess_run s' [EConnected; ETransport r w]) = []).
Proof.
  intros H Hs. destruct (connection_path _ _ _ _ _ _ _ H) as [mes Em].
  destruct (mgr_run (mgr_new 65536 (id_gateway i) 0) mes) as [g mh] eqn:Er. cbn [fst] in Em. rewrite Em in Hs.
  destruct (projection _ _ _ _ _ _ _ _ Er Hs) as [svc Hp].
  exists (sess_close s). split.
  { unfold mgr_drop. apply in_map_iff. exists (sid, s). split; [reflexivity|]. rewrite Em. now apply alookup_in. }
  assert (E : s_phase (sess_close s) = s_phase s /\ s_closed (sess_close s) = true /\
              (s_tr_waker s = true \/ s_tr_run s = true -> s_tr_run (sess_close s) = true)).
  { unfold sess_close, wake_mgr, wake_tr. cbn. destruct (s_tr_waker s) eqn:E; cbn; destruct (s_mgr_waker s); cbn; intuition. }
  destruct E as (E1 & E2 & E3). split; [exact E1|]. split; [|split].
  - intros Hph. rewrite E1 in Hph. apply E3. destruct (s_tr_run s) eqn:Et; [auto|]. left.
    apply (no_lost_wakeup_tr _ _ _ _ _ _ Hp Hph Et).
  - intros Hph r w. cbn [sess_step]. unfold transport_poll. rewrite Hph. cbn [s_closed with_tr]. rewrite E2. split; reflexivity.
  - intros Hph r w. cbn [sess_run sess_step]. rewrite Hph. cbn [sess_run]. unfold transport_poll. cbn [s_phase with_phase].
    cbn [s_closed with_tr with_phase]. rewrite E2. split; reflexivity.
Qed.
