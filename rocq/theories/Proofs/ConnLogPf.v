(** The log of a connection tells about its messages. *)
From Coq Require Import String NArith ZArith ZifyBool ZifyNat ZifyN List Bool Lia.
From Verif.Model Require Import Bytes Text Frame Service Control Session Manager Client Logger Journal ConnLog.
From Verif.Spec Require Import ControlSpec ClientSpec ConnLogSpec.
From Verif.Proofs Require Import ControlProofs ClientInv.
Import ListNotations.
Local Open Scope N_scope.

Section Log.
  Variable aprint : saddr -> bytes.

  Definition good (c : ctx) (o : list cobs) (L : list line) (c' : ctx) : Prop :=
    (bytes_received o -> exists ls, Forall2 tells o ls /\ own_lines L = List.concat ls) /\
    (exists mes, mgr_run (c_mgr c) (map fst mes) = (c_mgr c', manager_history o) /\ session_lines L = mgr_journal aprint (c_mgr c) mes).

  Lemma run_app g es es' : mgr_run g (es ++ es') =
    (fst (mgr_run (fst (mgr_run g es)) es'), snd (mgr_run g es) ++ snd (mgr_run (fst (mgr_run g es)) es')).
  Proof.
    revert g. induction es as [|e es IH]; intros g; cbn [mgr_run app fst snd].
    - now destruct (mgr_run g es').
    - destruct (mgr_step g e) as [g1 o1]. rewrite IH. destruct (mgr_run g1 es) as [g2 o2]. cbn [fst snd]. now rewrite app_assoc.
  Qed.
  Lemma journal_app g es es' : mgr_journal aprint g (es ++ es') = mgr_journal aprint g es ++ mgr_journal aprint (fst (mgr_run g (map fst es))) es'.
  Proof.
    revert g. induction es as [|[e err] es IH]; intros g; cbn [mgr_journal app map fst mgr_run]; [reflexivity|].
    rewrite IH. destruct (mgr_step g e) as [g1 o1]. cbn [fst]. destruct (mgr_run g1 (map fst es)) as [g2 o2]. cbn [fst]. now rewrite app_assoc.
  Qed.
  Lemma hist_app a b : manager_history (a ++ b) = manager_history a ++ manager_history b.
  Proof. apply flat_map_app. Qed.

  Lemma good_app c o L c1 o' L' c2 : good c o L c1 -> good c1 o' L' c2 -> good c (o ++ o') (L ++ L') c2.
  Proof.
    intros [A (m1 & R1 & S1)] [B (m2 & R2 & S2)]. split.
    - intros W. destruct A as (l1 & F1 & E1); [intros e m I; apply (W e m); apply in_app_iff; now left|].
      destruct B as (l2 & F2 & E2); [intros e m I; apply (W e m); apply in_app_iff; now right|].
      exists (l1 ++ l2). split; [now apply Forall2_app|]. unfold own_lines in *. now rewrite flat_map_app, concat_app, E1, E2.
    - exists (m1 ++ m2). rewrite map_app, run_app, R1. cbn [fst snd]. rewrite R2. cbn [fst snd]. rewrite hist_app. split; [reflexivity|].
      unfold session_lines in *. rewrite flat_map_app, journal_app, R1. cbn [fst]. now rewrite S1, S2.
  Qed.
  Lemma good_nil c c' : c_mgr c' = c_mgr c -> good c [] [] c'.
  Proof. intros E. split; [intros _; exists []; split; [constructor|reflexivity]|]. exists []. cbn. now rewrite E. Qed.
  Lemma good_nil_r c o L c1 c2 : good c o L c1 -> c_mgr c2 = c_mgr c1 -> good c o L c2.
  Proof. intros G E. destruct G as [A B]. split; [exact A|]. now rewrite E. Qed.

  Lemma good_ids c : good c [] [] (snd (c_next_id c)).
  Proof.
    unfold c_next_id. cbn [next_id snd]. split; [intros _; exists []; split; [constructor|reflexivity]|].
    exists [(MIds ((g_factory (c_mgr c) + 1) mod 2 ^ 64), [])]. split; reflexivity.
  Qed.
  Lemma good_queue t c m r : tells (XQueue t m) [r] -> good c (snd (send_control t c m)) [LOwn r] (fst (send_control t c m)).
  Proof.
    intros T. unfold send_control. cbn [fst snd]. split.
    - intros _. exists [[r]]. split; [constructor; [exact T|constructor]|reflexivity].
    - exists []. split; [|reflexivity]. cbn [map mgr_run manager_history flat_map app]. f_equal. destruct (c_task _); reflexivity.
  Qed.
  Lemma good_mgr c e err : good c (map XMgr (snd (mgr_step (c_mgr c) e))) (ses (mgr_log aprint (c_mgr c) e err)) (fst (lift_mgr c (mgr_step (c_mgr c) e))).
  Proof.
    destruct (mgr_step (c_mgr c) e) as [g o] eqn:E. cbn [lift_mgr fst snd]. split.
    - intros _. exists (map (fun _ => []) o). split.
      + induction o as [|x o IH]; [constructor|]. constructor; [constructor|]. clear IH E. induction o; constructor; [constructor|assumption].
      + assert (A : own_lines (ses (mgr_log aprint (c_mgr c) e err)) = []).
        { unfold own_lines, ses. induction (mgr_log aprint (c_mgr c) e err); [reflexivity|exact IHl]. }
        rewrite A. clear. induction o; [reflexivity|exact IHo].
    - exists [(e, err)]. cbn [map fst mgr_run mgr_journal]. rewrite E. cbn [fst]. rewrite !app_nil_r.
      assert (H : manager_history (map XMgr o) = o) by (clear; unfold manager_history; induction o as [|x o IH]; [reflexivity|cbn; now rewrite IH]).
      assert (S : session_lines (ses (mgr_log aprint (c_mgr c) e err)) = mgr_log aprint (c_mgr c) e err).
      { unfold session_lines, ses. induction (mgr_log aprint (c_mgr c) e err) as [|x l IH]; [reflexivity|cbn; now rewrite IH]. }
      rewrite H, S. split; reflexivity.
  Qed.

  Lemma good_ping t c : good c (snd (send_ping t c)) [LOwn ping_rec] (fst (send_ping t c)).
  Proof.
    unfold send_ping. pose proof (good_ids c) as G. destruct (c_next_id c) as [id c1]. cbn [snd] in G.
    pose proof (good_queue t (set_acks c1 (c_acks c1 ++ [(t, cm_id (mk_ping id))])) (mk_ping id) ping_rec) as Q.
    unfold send_unconfirmed. destruct (send_control t _ (mk_ping id)) as [c2 o]. cbn [fst snd] in *.
    apply (good_nil_r _ _ _ c2); [|reflexivity]. apply (good_app c [] [] (set_acks c1 (c_acks c1 ++ [(t, cm_id (mk_ping id))])) o [LOwn ping_rec] c2).
    - apply (good_nil_r _ _ _ c1); [exact G|reflexivity].
    - apply Q. constructor; reflexivity.
  Qed.
  Lemma good_update t c v1 v2 : good c (snd (send_update t c v1 v2)) [LOwn update_rec] (fst (send_update t c v1 v2)).
  Proof.
    unfold send_update. cbv zeta. pose proof (good_ids c) as G. destruct (c_next_id c) as [id c1]. cbn [snd] in G.
    set (m := mk_update id _). set (c2 := set_version c1 _).
    apply (good_app c [] [] c2 _ [LOwn update_rec] _).
    - apply (good_nil_r _ _ _ c1); [exact G|reflexivity].
    - apply good_queue. constructor; reflexivity.
  Qed.
  Lemma good_time t c v0 v1 v2 : good c (snd (time_event t c v0 v1 v2)) (time_log t c v0) (snd (fst (time_event t c v0 v1 v2))).
  Proof.
    unfold time_event, time_log. destruct (c_established c); [|apply good_nil; reflexivity]. cbv zeta.
    assert (P : good c (snd (if (PING_PERIOD <=? t - c_last_ping c)%Z then send_ping t c else (c, [])))
                  (if (PING_PERIOD <=? t - c_last_ping c)%Z then [LOwn ping_rec] else [])
                  (if (PING_PERIOD <=? t - c_last_ping c)%Z then fst (send_ping t c) else c)).
    { destruct (_ <=? _)%Z; [apply good_ping|apply good_nil; reflexivity]. }
    assert (E : fst (if (PING_PERIOD <=? t - c_last_ping c)%Z then send_ping t c else (c, [])) = if (PING_PERIOD <=? t - c_last_ping c)%Z then fst (send_ping t c) else c) by (destruct (_ <=? _)%Z; reflexivity).
    set (c1 := if (PING_PERIOD <=? t - c_last_ping c)%Z then fst (send_ping t c) else c) in *.
    destruct (if (PING_PERIOD <=? t - c_last_ping c)%Z then send_ping t c else (c, [])) as [c1' o1]. cbn [fst snd] in *. subst c1'.
    destruct (UPDATE_CHECK_PERIOD <=? t - c_last_check c1)%Z; cbn [andb].
    - unfold check_for_updates. destruct (c_version c1 =? v_version v0); cbn [negb].
      + cbn [fst snd]. apply (good_app _ _ _ c1); [exact P|]. apply good_nil. reflexivity.
      + pose proof (good_update t c1 v1 v2) as U. destruct (send_update t c1 v1 v2) as [c2 o2]. cbn [fst snd] in *.
        apply (good_app _ _ _ c1); [exact P|]. apply (good_nil_r _ _ _ c2); [exact U|reflexivity].
    - cbn [fst snd]. apply (good_app _ _ _ c1); [exact P|]. apply good_nil. reflexivity.
  Qed.

  Lemma name_type code : type_name (message_type code) = name_of code.
  Proof.
    destruct (N.le_gt_cases code 13) as [H|H].
    - assert (K : In code (map N.of_nat (seq 0 14))) by (apply in_map_iff; exists (N.to_nat code); split; [lia|apply in_seq; lia]).
      cbn [seq map In] in K. repeat (destruct K as [<-|K]; [reflexivity|]). destruct K.
    - unfold name_of. rewrite nth_overflow by (unfold names; rewrite map_length; cbn [List.length]; lia).
      destruct code as [|p]; [lia|]. do 4 (destruct p as [p|p|]; try reflexivity; try lia).
  Qed.
  Lemma type_12 code : message_type code = DATA_ACK <-> code = 12.
  Proof.
    split; [|now intros ->]. destruct code as [|p]; [discriminate|]. do 4 (destruct p as [p|p|]; try discriminate; try reflexivity).
  Qed.

  (** One received control message *)
  Lemma good_recv e c m L : m_service m = 0 ->
    (wf_bytes (m_payload m) -> tells (XRecv e m) (own_lines L)) -> session_lines L = [] -> good c [XRecv e m] L c.
  Proof.
    intros Z T S. split.
    - intros W. exists [own_lines L]. split; [constructor; [apply T; apply (W e m); now left|constructor]|]. cbn. now rewrite app_nil_r.
    - exists []. split; [reflexivity|exact S].
  Qed.

  Definition head_log (m : cmsg) : list line := match message_type (cm_type m) with DATA_ACK => [] | t => [LOwn (received_rec t)] end.
  Lemma good_head e c m cm : m_service m = 0 -> cmsg_from_bytes (m_payload m) = ROk cm -> good c [XRecv e m] (head_log cm) c.
  Proof.
    intros Z D. apply good_recv; [exact Z| |unfold head_log; destruct (message_type (cm_type cm)); reflexivity].
    intros W. apply (accept_sound _ _ W) in D. destruct (N.eq_dec (cm_type cm) 12) as [E|E].
    - unfold head_log. rewrite E. cbn. exact (tells_data_ack e m cm Z D E).
    - assert (H : own_lines (head_log cm) = [received_rec (message_type (cm_type cm))]).
      { unfold head_log. destruct (message_type (cm_type cm)) eqn:T; try reflexivity. apply type_12 in T. contradiction. }
      rewrite H. apply (tells_control e m cm _ Z D E); [reflexivity|]. unfold received_rec, say. cbn [j_text List.concat]. now rewrite app_nil_r, name_type.
  Qed.

  Definition rest_log (e : env) (c : ctx) (m : cmsg) : list line :=
    if c_established c then
      match message_type (cm_type m), cm_body m with
      | PING, _ => [LOwn ack_rec]
      | GET_STATUS, _ => [LOwn status_rec]
      | GET_SCAN_REPORT, _ => [LOwn report_rec]
      | CONNECT, BConnect svc sid => ses (mgr_log aprint (c_mgr c) (MConnect (v_get (e_table e)) svc sid) [])
      | DATA_ACK, BDataAck sid len => ses (mgr_log aprint (c_mgr c) (MDataAck sid len) [])
      | HUP, BHup sid _ => ses (mgr_log aprint (c_mgr c) (MClose sid) [])
      | _, _ => []
      end
    else [].
  Lemma ack_mgr e c id err : c_mgr (snd (process_ack e c id err)) = c_mgr c.
  Proof.
    unfold process_ack, handshake_ack. destruct (c_acks c) as [|[t x] l]; [reflexivity|].
    repeat (match goal with |- context [if ?b then _ else _] => destruct b end); reflexivity.
  Qed.
  Lemma good_rest t e c m : good c (snd (process_control t e c m)) (rest_log e c m) (snd (fst (process_control t e c m))).
  Proof.
    unfold process_control, rest_log. cbv zeta.
    assert (BAD : forall k : option ekind, good c (snd (k, c, @nil cobs)) [] (snd (fst (k, c, @nil cobs)))) by (intros k; apply good_nil; reflexivity).
    assert (EST : forall r L, (c_established c = true -> good c (snd r) L (fst r)) ->
      good c (snd (if c_established c then (@None ekind, fst r, snd r) else (Some OtherError, c, []))) (if c_established c then L else [])
        (snd (fst (if c_established c then (@None ekind, fst r, snd r) else (Some OtherError, c, []))))).
    { intros r L H. destruct (c_established c); [apply H; reflexivity|apply good_nil; reflexivity]. }
    assert (LIFT : forall me, good c (snd (lift_mgr c (mgr_step (c_mgr c) me))) (ses (mgr_log aprint (c_mgr c) me [])) (fst (lift_mgr c (mgr_step (c_mgr c) me)))).
    { intros me. pose proof (good_mgr c me []) as G. destruct (mgr_step (c_mgr c) me) as [g o]. exact G. }
    assert (B0 : forall k : option ekind, good c (snd (k, c, @nil cobs)) (if c_established c then [] else []) (snd (fst (k, c, @nil cobs)))) by (intros k; destruct (c_established c); apply BAD).
    destruct (message_type (cm_type m)); try apply B0.
    - destruct (cm_body m); try apply B0. pose proof (ack_mgr e c (cm_id m) err) as A. destruct (process_ack e c (cm_id m) err) as [r c1]. cbn [fst snd] in *.
      destruct (c_established c); apply good_nil; exact A.
    - apply (EST (send_control t c (mk_ack (cm_id m) 0))). intros _. apply good_queue. constructor; reflexivity.
    - destruct (cm_body m); try apply B0. destruct (c_established c); cbn [fst snd]; apply good_nil; [|reflexivity]. destruct (c_task _); reflexivity.
    - destruct (cm_body m) as [| | | |sid code| | | | |]; try apply B0. exact (EST _ _ (fun _ => LIFT (MClose sid))).
    - destruct (c_established c); [|apply BAD]. cbn [fst snd]. split; [intros _; exists [[]]; split; [repeat constructor|reflexivity]|]. exists []. split; reflexivity.
    - destruct (c_established c); [|apply BAD]. cbn [fst snd]. split; [intros _; exists [[]]; split; [repeat constructor|reflexivity]|]. exists []. split; reflexivity.
    - pose proof (good_ids c) as G. destruct (c_next_id c) as [id c1]. cbn [snd] in G. apply EST. intros _.
      apply (good_app c [] [] c1); [exact G|]. apply good_queue. constructor; reflexivity.
    - pose proof (good_ids c) as G. destruct (c_next_id c) as [id c1]. cbn [snd] in G. apply EST. intros _.
      apply (good_app c [] [] c1); [exact G|]. apply good_queue. constructor; reflexivity.
    - destruct (cm_body m) as [| | |sid len| | | | | |]; try apply B0. exact (EST _ _ (fun _ => LIFT (MDataAck sid len))).
    - destruct (cm_body m) as [| |svc sid| | | | | | |]; try apply B0. exact (EST _ _ (fun _ => LIFT (MConnect (v_get (e_table e)) svc sid))).
  Qed.

  Lemma good_message t e c m : good c (snd (process_message t e c m)) (message_log aprint e c m) (snd (fst (process_message t e c m))).
  Proof.
    unfold process_message, message_log. destruct (is_closed c); [apply good_nil; reflexivity|].
    destruct (N.eqb_spec (m_service m) 0) as [Z|NZ].
    - destruct (cmsg_from_bytes (m_payload m)) as [cm| |] eqn:D.
      + pose proof (good_head e c m cm Z D) as H. pose proof (good_rest t e c cm) as R. destruct (process_control t e c cm) as [[r c1] o]. cbn [fst snd] in *.
        exact (good_app c [XRecv e m] (head_log cm) c o (rest_log e c cm) c1 H R).
      + cbn [fst snd]. apply good_recv; [exact Z| |reflexivity]. intros W. apply tells_garbage; [exact Z|]. intros cm X. apply accept_complete in X. congruence.
      + cbn [fst snd]. apply good_recv; [exact Z| |reflexivity]. intros W. apply tells_garbage; [exact Z|]. intros cm X. apply accept_complete in X. congruence.
    - assert (H : good c [XRecv e m] [] c).
      { split; [intros _; exists [[]]; split; [constructor; [now apply tells_data|constructor]|reflexivity]|]. exists []. split; reflexivity. }
      destruct (c_established c); [|exact H]. pose proof (good_mgr c (MSend m) []) as G. cbn [mgr_step] in G.
      destruct (mgr_send (c_mgr c) m) as [g o]. cbn [lift_mgr fst snd] in *.
      exact (good_app c [XRecv e m] [] c (map XMgr o) _ _ H G).
  Qed.
  Lemma good_feed c i : good c (snd (feed_item c i)) (feed_log aprint c i) (snd (fst (feed_item c i))).
  Proof. destruct i as [t e m| |]; cbn [feed_item feed_log]; [apply good_message|apply good_nil; reflexivity|apply good_nil; reflexivity]. Qed.

  Lemma good_ctx_poll c err : good c (snd (ctx_poll c)) (ctx_poll_log aprint c err) (snd (fst (ctx_poll c))).
  Proof.
    unfold ctx_poll, ctx_poll_log. destruct (is_closed c); [apply good_nil; reflexivity|]. destruct (c_messages c) as [|m q]; [|apply good_nil; reflexivity].
    pose proof (good_mgr c MPoll err) as G. cbn [mgr_step] in G. destruct (mgr_poll (c_mgr c)) as [g o]. cbn [lift_mgr fst snd] in G.
    destruct (polled_msg o); cbn [fst snd]; (eapply good_nil_r; [exact G|reflexivity]).
  Qed.

  Lemma good_loop err items : forall c, good c (snd (client_loop c items)) (loop_log aprint c items err) (snd (fst (client_loop c items))).
  Proof.
    induction items as [|i items IH]; intros c; cbn [client_loop loop_log]; pose proof (good_ctx_poll c err) as P; destruct (ctx_poll c) as [[p c1] o1]; cbn [fst snd] in P.
    - destruct p; cbn [fst snd]; rewrite app_nil_r; exact P.
    - destruct p; cbn [fst snd]; try (rewrite app_nil_r; exact P).
      pose proof (good_feed c1 i) as F. destruct (feed_item c1 i) as [[r c2] o2]. cbn [fst snd] in F. destruct r as [k|].
      + cbn [fst snd]. rewrite app_nil_r. exact (good_app _ _ _ _ _ _ _ P F).
      + specialize (IH c2). destruct (client_loop c2 items) as [[p3 c3] o3]. cbn [fst snd] in *. exact (good_app _ _ _ _ _ _ _ P (good_app _ _ _ _ _ _ _ F IH)).
  Qed.
  Lemma good_client_poll err c items : good c (snd (client_poll c items)) (client_poll_log aprint c items err) (snd (fst (client_poll c items))).
  Proof.
    destruct items as [|i items]; [exact (good_loop err [] c)|]. unfold client_poll, client_poll_log.
    pose proof (good_feed c i) as F. destruct (feed_item c i) as [[r c2] o2]. cbn [fst snd] in F. destruct r as [k|].
    - cbn [fst snd]. rewrite app_nil_r. exact F.
    - pose proof (good_loop err items c2) as IH. destruct (client_loop c2 items) as [[p3 c3] o3]. cbn [fst snd] in *. exact (good_app _ _ _ _ _ _ _ F IH).
  Qed.

  Lemma good_tick t v0 v1 v2 c : good c [XTick t v0 v1 v2] [] c.
  Proof. split; [intros _; exists [[]]; split; [repeat constructor|reflexivity]|]. exists []. split; reflexivity. Qed.
  Lemma good_sent m c : good c [XSent m] [] c.
  Proof. split; [intros _; exists [[]]; split; [repeat constructor|reflexivity]|]. exists []. split; reflexivity. Qed.

  Lemma good_step k e err : good (k_ctx k) (snd (conn_step k e)) (conn_log aprint k e err) (k_ctx (fst (conn_step k e))).
  Proof.
    unfold conn_step, conn_log. destruct (k_result k); [apply good_nil; reflexivity|]. destruct e as [items|t v0 v1 v2| |sid te].
    - pose proof (good_client_poll err (k_ctx k) items) as G. destruct (client_poll (k_ctx k) items) as [[p c1] o]. cbn [fst snd] in G.
      destruct p; cbn [fst snd k_ctx]; try exact G. rewrite <- (app_nil_r (client_poll_log aprint (k_ctx k) items err)). exact (good_app _ _ _ _ _ _ _ G (good_sent m c1)).
    - destruct (is_closed (k_ctx k)); [apply good_nil; reflexivity|]. pose proof (good_time t (k_ctx k) v0 v1 v2) as G.
      destruct (time_event t (k_ctx k) v0 v1 v2) as [[r c1] o]. cbn [fst snd k_ctx] in *. exact (good_app _ _ _ _ _ _ _ (good_tick t v0 v1 v2 (k_ctx k)) G).
    - apply good_nil. reflexivity.
    - pose proof (good_mgr (k_ctx k) (MTransport sid te) []) as G. destruct (mgr_step (c_mgr (k_ctx k)) (MTransport sid te)) as [g o]. exact G.
  Qed.
  Lemma good_run es : forall k, good (k_ctx k) (snd (conn_run k (map fst es))) (conn_lines aprint k es) (k_ctx (fst (conn_run k (map fst es)))).
  Proof.
    induction es as [|[e err] es IH]; intros k; cbn [conn_run conn_lines map fst]; [apply good_nil; reflexivity|].
    pose proof (good_step k e err) as S. destruct (conn_step k e) as [k1 o1]. cbn [fst snd] in *. specialize (IH k1).
    destruct (conn_run k1 (map fst es)) as [k2 o2]. cbn [fst snd] in *. exact (good_app _ _ _ _ _ _ _ S IH).
  Qed.

  Lemma connection_told t i v1 v2 es k h : connection t i v1 v2 (map fst es) = (k, h) ->
    (bytes_received h -> exists ls, Forall2 tells h ls /\ own_lines (connection_log aprint t i v1 v2 es) = List.concat ls) /\
    (exists mes, mgr_run (mgr_new SESSION_WINDOW_SIZE (id_gateway i) factory_new) (map fst mes) = (c_mgr (k_ctx k), manager_history h) /\
       session_lines (connection_log aprint t i v1 v2 es) = mgr_journal aprint (mgr_new SESSION_WINDOW_SIZE (id_gateway i) factory_new) mes).
  Proof.
    unfold connection, connection_log, conn_new.
    assert (G : exists c0, c_mgr c0 = mgr_new SESSION_WINDOW_SIZE (id_gateway i) factory_new /\ good c0 (snd (ctx_new t i v1 v2)) [LOwn register_rec] (fst (ctx_new t i v1 v2))).
    { unfold ctx_new. cbv zeta. set (c0 := {| c_mgr := _ |}). exists c0. split; [reflexivity|].
      pose proof (good_ids c0) as G. destruct (c_next_id c0) as [id c1] eqn:E. cbn [snd] in G.
      destruct (mk_register _ _ _ _ _ _ _ _) as [m| |] eqn:M.
      - apply (good_app c0 [] [] (set_acks (set_version c1 (v_version v2)) (c_acks (set_version c1 (v_version v2)) ++ [(t, cm_id m)]))).
        + eapply good_nil_r; [exact G|reflexivity].
        + apply good_queue. unfold mk_register in M. cbn in M. injection M as <-. constructor; reflexivity.
      - exfalso. unfold mk_register in M. cbn in M. discriminate.
      - exfalso. unfold mk_register in M. cbn in M. discriminate. }
    destruct G as (c0 & E0 & G). destruct (ctx_new t i v1 v2) as [c o]. cbn [fst snd] in *. intros E.
    pose proof (good_run es {| k_ctx := c; k_result := None |}) as R. cbn [k_ctx] in R. destruct (conn_run {| k_ctx := c; k_result := None |} (map fst es)) as [k1 o1].
    injection E as <- <-. cbn [fst snd] in R. rewrite <- E0. exact (good_app _ _ _ _ _ _ _ G R).
  Qed.
End Log.
