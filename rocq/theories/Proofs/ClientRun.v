(** Runs of a connection. *)
From Coq Require Import NArith ZArith List Bool Lia ZifyBool ZifyNat ZifyN.
From Verif.Model Require Import Bytes Frame Service Control Alist Session Manager Client.
From Verif.Spec Require Import ControlSpec ManagerSpec ClientSpec.
From Verif.Proofs Require Import BytesFacts ControlProofs AlistFacts ManagerProofs ClientProofs ClientInv.
Import ListNotations.
Local Open Scope N_scope.

Lemma open_not_closed c : c_closed c = false /\ c_redirect c = None -> is_closed c = false.
Proof. intros [A B]. unfold is_closed. now rewrite A, B. Qed.

Lemma handshake_cases e c code :
  handshake_ack e c code =
  if code =? 0 then (None, if e_diagnostic e then set_redirect (set_established c) [] else set_established c)
  else (Some (verdict code), c).
Proof.
  unfold handshake_ack, verdict. change EC_NO_ERROR with 0. change EC_UNAUTHORIZED with 2.
  change EC_UNSUPPORTED_PROTOCOL_VERSION with 1. change EC_INTERNAL_SERVER_ERROR with 4294967295.
  destruct (N.eqb_spec code 0); [reflexivity|]. destruct (N.eqb_spec code 2) as [->|]; [reflexivity|].
  destruct (N.eqb_spec code 1); [reflexivity|]. destruct (code =? 4294967295); reflexivity.
Qed.
Lemma verdict_no_panic code : verdict code <> EPanic.
Proof. unfold verdict. repeat destruct (_ =? _); discriminate. Qed.

Lemma send_control_obs t c m : send_control t c m = (fst (send_control t c m), [XQueue t m]).
Proof. reflexivity. Qed.
Lemma send_control_check t c m : c_last_check (fst (send_control t c m)) = c_last_check c.
Proof. unfold send_control. cbn [fst]. csimp. destruct (c_task c); reflexivity. Qed.
Lemma send_control_version t c m : c_version (fst (send_control t c m)) = c_version c.
Proof. unfold send_control. cbn [fst]. csimp. destruct (c_task c); reflexivity. Qed.
Lemma send_control_lping t c m : c_last_ping (fst (send_control t c m)) = c_last_ping c.
Proof. unfold send_control. cbn [fst]. csimp. destruct (c_task c); reflexivity. Qed.
Lemma send_control_est t c m : c_established (fst (send_control t c m)) = c_established c.
Proof. unfold send_control. cbn [fst]. csimp. destruct (c_task c); reflexivity. Qed.

Section Run.
  Variables (t0 : Z) (i : identity) (v1 : view).
  Notation inv := (inv t0 i v1).
  Notation run_ok := (run_ok t0 i v1).

  Lemma answered_keep h o : existsb is_recv o = false -> answers (h ++ o) = answers h -> answered h -> answered (h ++ o).
  Proof. unfold answered. intros A B C. rewrite (asked_app h o A), B. exact C. Qed.
  Lemma answered_recv h e m : read_request m = None -> answered h -> answered (h ++ [XRecv e m]).
  Proof.
    unfold answered. intros A C. rewrite asked_snoc, A, app_nil_r, answers_app. cbn. rewrite app_nil_r. exact C.
  Qed.

  Lemma feed_running c h t e m r c' o :
    run_ok c h -> handled t e c m r c' o ->
    (r = None /\ is_closed c' = false /\ run_ok c' (h ++ XRecv e m :: o) /\ c_version c' = c_version c) \/
    (o = [] /\ ((exists k, r = Some k /\ k <> EPanic) \/ (r = None /\ exists tgt, c_redirect c' = Some tgt))).
  Proof.
    intros (I & L & A) Hd. pose proof (v_est _ _ _ _ _ I) as Hest.
    destruct Hd as [Ha Hb|id code Ha Hb|id code t1 x rest Ha Hb Hc|id code t1 rest Ha Hb Hc|id code t1 rest r c' Ha Hb Hc Hd
                   |me g o Ha Hb Hc Hd He|q a c1 Ha Hb Hc Hd|id target Ha Hb Hc Hd He|cmd id ty Ha Hb Hc Hd He Hf].
    - right. split; [reflexivity|]. left. eexists. split; [reflexivity|discriminate].
    - right. split; [reflexivity|]. left. eexists. split; [reflexivity|discriminate].
    - right. split; [reflexivity|]. left. eexists. split; [reflexivity|discriminate].
    - left. split; [reflexivity|]. assert (R : registered h = true) by congruence.
      pose proof (inv_ack _ _ _ c h e m id code rest _ I R Ha Hb) as I'.
      split; [apply open_not_closed, (v_open _ _ _ _ _ I')|]. split; [|reflexivity].
      split; [exact I'|]. split; [csimp; now rewrite lcheck_snoc|]. apply answered_recv; [eapply read_ack_no_request; eauto|exact A].
    - rewrite handshake_cases in Hd. destruct (N.eqb_spec code 0) as [E0|E0].
      + subst code. injection Hd as <- <-. destruct (e_diagnostic e) eqn:Edg.
        * right. split; [reflexivity|]. right. split; [reflexivity|]. exists []. reflexivity.
        * left. split; [reflexivity|]. assert (R : registered h = false) by congruence.
          destruct (v_first _ _ _ _ _ I) as (rest' & Hh & Hf). destruct (Hf R) as (F1 & F2 & F3 & F4).
          assert (rest = [] /\ id = REGISTER_ID) as [-> ->] by (split; congruence).
          destruct (inv_register _ _ _ c h e m I R Ha Edg) as [I' R'].
          split; [apply open_not_closed, (v_open _ _ _ _ _ I')|]. split; [|reflexivity].
          split; [exact I'|]. split; [csimp; now rewrite lcheck_snoc|]. apply answered_recv; [eapply read_ack_no_request; eauto|exact A].
      + injection Hd as <- <-. right. split; [reflexivity|]. left. eexists. split; [reflexivity|apply verdict_no_panic].
    - left. split; [reflexivity|]. assert (R : registered h = true) by congruence.
      pose proof (inv_recv _ _ _ c h e m I R Ha) as I1.
      pose proof (inv_mgr _ _ _ c _ me g o I1 (registered_mono h [XRecv e m] R) He) as I2. rewrite <- app_assoc in I2.
      split; [apply open_not_closed, (v_open _ _ _ _ _ I2)|]. split; [|reflexivity].
      split; [exact I2|]. csimp. change (XRecv e m :: map XMgr o) with ([XRecv e m] ++ map XMgr o). rewrite app_assoc.
      split; [rewrite lcheck_app by apply tick_mgr; now rewrite lcheck_snoc|].
      apply answered_keep; [apply recv_mgr|apply answers_mgr|]. now apply answered_recv.
    - left. split; [reflexivity|]. assert (R : registered h = true) by congruence.
      assert (I0 : inv c1 h /\ c_last_check c1 = c_last_check c /\ c_version c1 = c_version c).
      { unfold answer_to in Hd. destruct q as [id|id|id].
        - injection Hd as <- <-. auto.
        - destruct (c_next_id c) as [n c2] eqn:En. injection Hd as <- <-. split; [eapply inv_next_id; eauto|].
          unfold c_next_id in En. cbn [next_id] in En. injection En as <- <-. split; reflexivity.
        - destruct (c_next_id c) as [n c2] eqn:En. injection Hd as <- <-. split; [eapply inv_next_id; eauto|].
          unfold c_next_id in En. cbn [next_id] in En. injection En as <- <-. split; reflexivity. }
      destruct I0 as (I0 & L0 & V0).
      pose proof (inv_recv _ _ _ c1 h e m I0 R Ha) as I1.
      assert (Hn : needs_ack a = false /\ (cm_type a =? 1) = false /\
                   ((cm_type a =? 0) || (cm_type a =? 9) || (cm_type a =? 11)) = true).
      { unfold answer_to in Hd. destruct q as [id|id|id].
        - injection Hd as <- <-. repeat split.
        - destruct (c_next_id c) as [n c2]. injection Hd as <- <-. repeat split.
        - destruct (c_next_id c) as [n c2]. injection Hd as <- <-. repeat split. }
      destruct Hn as (Hn1 & Hn2 & Hn3).
      pose proof (inv_queue _ _ _ c1 _ t a c1 I1 (registered_mono h [XRecv e m] R)) as I2.
      rewrite Hn1, Hn2 in I2. specialize (I2 eq_refl). rewrite <- app_assoc in I2.
      split; [apply open_not_closed, (v_open _ _ _ _ _ I2)|]. split; [|now rewrite send_control_version].
      split; [exact I2|].
      change (XRecv e m :: [XQueue t a]) with ([XRecv e m] ++ [XQueue t a]). rewrite app_assoc.
      split; [rewrite send_control_check, !lcheck_snoc; congruence|].
      unfold answered in *. rewrite asked_app by reflexivity. rewrite asked_snoc, Hb, R, !answers_app.
      assert (Ea : answers [XQueue t a] = [a]) by (unfold answers; cbn [produced flat_map app filter]; now rewrite Hn3).
      rewrite Ea. change (answers [XRecv e m]) with (@nil cmsg). rewrite app_nil_r. apply Forall2_app; [exact A|].
      constructor; [|constructor]. unfold answer_to in Hd. cbn [answer]. destruct q as [id|id|id].
      * injection Hd as <- <-. reflexivity.
      * destruct (c_next_id c) as [n c2]. injection Hd as <- <-.
        destruct (v_mgr _ _ _ _ _ I) as [mes Hm]. apply run_alive in Hm as (l & Hl1 & Hl2 & Hl3).
        exists (length l), n. split; [exists l; auto|]. rewrite Hl2. reflexivity.
      * destruct (c_next_id c) as [n c2]. injection Hd as <- <-. exists n. reflexivity.
    - right. split; [reflexivity|]. right. split; [reflexivity|]. exists target. unfold redirected. csimp. destruct (c_task c); reflexivity.
    - left. split; [reflexivity|]. assert (R : registered h = true) by congruence.
      pose proof (inv_recv _ _ _ c h e m I R Ha) as I1.
      split; [apply open_not_closed, (v_open _ _ _ _ _ I)|]. split; [|reflexivity].
      change (XRecv e m :: [XCmd cmd]) with ([XRecv e m] ++ [XCmd cmd]). rewrite app_assoc.
      split.
      + destruct I1 as [J1 J2 J3 J4 J5 J6 J7 J8 J9]. set (h1 := h ++ [XRecv e m]) in *.
        assert (R1 : registered h1 = true) by now apply registered_mono.
        assert (R2 : registered (h1 ++ [XCmd cmd]) = true) by now apply registered_mono.
        split; auto.
        * now rewrite outstanding_snoc.
        * now rewrite waiting_snoc, J2.
        * congruence.
        * now apply first_ok_keep.
        * rewrite mhist_app. cbn. rewrite app_nil_r. exact J5.
        * rewrite lping_snoc. exact J6.
        * eapply first_keep; [exact J8|exact R2].
      + split; [rewrite !lcheck_snoc; exact L|]. apply answered_keep; [reflexivity| |now apply answered_recv].
        rewrite !answers_app. cbn. now rewrite !app_nil_r.
  Qed.

  Lemma poll_running c h p c' o :
    run_ok c h -> ctx_poll c = (p, c', o) ->
    (p = PPending /\ run_ok c' (h ++ o) /\ c_version c' = c_version c /\ c_run c' = false /\ g_run (c_mgr c') = false) \/
    (exists m, p = PReady m /\ run_ok c' (h ++ o ++ [XSent m]) /\ c_version c' = c_version c).
  Proof.
    intros (I & L & A). unfold ctx_poll. rewrite (open_not_closed c (v_open _ _ _ _ _ I)).
    destruct (c_messages c) as [|m q] eqn:Em.
    - destruct (mgr_poll (c_mgr c)) as [g ob] eqn:Ep.
      pose proof (inv_poll _ _ _ c h g ob I Em Ep) as I1.
      assert (A1 : answered (h ++ map XMgr ob)) by (apply answered_keep; [apply recv_mgr|apply answers_mgr|exact A]).
      assert (L1 : c_last_check c = last_check t0 (h ++ map XMgr ob)) by (rewrite lcheck_app by apply tick_mgr; exact L).
      destruct (polled_msg ob) as [m|] eqn:Eo.
      + intros [= <- <- <-]. right. exists m. split; [reflexivity|]. split; [|reflexivity]. rewrite app_assoc.
        assert (R : registered h = true).
        { destruct (registered h) eqn:R; [reflexivity|]. exfalso.
          destruct (v_first _ _ _ _ _ I) as (rest & _ & Hf). destruct (Hf R) as (_ & _ & F & _).
          destruct (fresh_poll _ F) as (g' & Hp & _). rewrite Hp in Ep. injection Ep as <- <-. discriminate. }
        assert (I2 : inv (set_ctask (set_mgr c g) (c_task c) true) (h ++ map XMgr ob)) by (apply inv_task; auto).
        split; [apply inv_sent_mgr; auto; now apply registered_mono|].
        split; [csimp; rewrite lcheck_snoc; exact L1|].
        apply answered_keep; [reflexivity| |exact A1]. rewrite answers_app. cbn. apply app_nil_r.
      + intros [= <- <- <-]. left. split; [reflexivity|]. split; [|split; [reflexivity|]].
        * split; [apply inv_task; [exact I1|auto]|]. split; [exact L1|exact A1].
        * split; [reflexivity|]. csimp. unfold mgr_poll in Ep. destruct (g_queue (c_mgr c)).
          -- destruct (poll_loop _ _) as [[[|] g1] ob1] eqn:El; injection Ep as <- <-; [|reflexivity]. exfalso.
             clear -Eo El. revert Eo El. generalize (length (g_order (c_mgr c))) as n. generalize (c_mgr c) as g. intros g n.
             revert g ob1. induction n as [|n IH]; intros g ob; cbn [poll_loop]; [discriminate|].
             destruct (g_order g) as [|sid rest]; [apply IH|]. cbv zeta. destruct (find_sess (set_order g rest) sid) as [s|]; [|apply IH].
             destruct (sess_take _ s) as [[[tk s'] f'] ob2]. destruct tk.
             ++ intros Eo [= <- <-]. discriminate.
             ++ intros Eo [= <- <-]. discriminate.
             ++ intros Eo [= <- <-]. discriminate.
             ++ destruct (poll_loop n _) as [[r g3] os] eqn:El. intros Eo [= -> <- <-]. cbn [polled_msg] in Eo. eapply IH; eauto.
          -- injection Ep as <- <-. discriminate.
    - intros [= <- <- <-]. right. exists m. split; [reflexivity|]. split; [|reflexivity]. cbn [app].
      split; [apply inv_sent; auto|]. split; [csimp; rewrite lcheck_snoc; exact L|].
      apply answered_keep; [reflexivity| |exact A]. rewrite answers_app. cbn. apply app_nil_r.
  Qed.

  (** ** Ticks *)
  Lemma tick_shape c h t a b d r c' o :
    run_ok c h -> time_event t c a b d = (r, c', o) ->
    run_ok c' (h ++ XTick t a b d :: o) /\
    r = (if ack_timeout t c' then Some ConnectionError else None) /\
    exists p u, o = p ++ u /\
      (if registered h && (60 * SEC <=? t - last_ping t0 h)%Z then exists n, p = [XQueue t (mk_ping n)] else p = []) /\
      (if registered h && (5 * SEC <=? t - last_check t0 h)%Z && negb (c_version c =? v_version a)
       then (exists n, u = [XQueue t (mk_update n (table_of_services (v_visible b)))]) /\ c_version c' = v_version d
       else u = [] /\ c_version c' = c_version c).
  Proof.
    intros (I & L & A) H. unfold time_event in H.
    pose proof (inv_tick _ _ _ c h t a b d I) as I0. set (h0 := h ++ [XTick t a b d]) in *.
    assert (Eh : forall o, h ++ XTick t a b d :: o = h0 ++ o) by (intros; unfold h0; now rewrite <- app_assoc).
    assert (R0 : registered h0 = registered h).
    { unfold h0. apply registered_ext. rewrite received_app. apply app_nil_r. }
    assert (L0 : last_check t0 h0 = if registered h && (5 * SEC <=? t - last_check t0 h)%Z then t else last_check t0 h)
      by (unfold h0; now rewrite lcheck_snoc).
    assert (A0 : answered h0).
    { apply answered_keep; [reflexivity| |exact A]. rewrite answers_app. cbn. apply app_nil_r. }
    rewrite Eh. rewrite (v_est _ _ _ _ _ I) in H.
    destruct (registered h) eqn:R; cbn [andb].
    2:{ injection H as <- <- <-. rewrite app_nil_r. split; [split; [exact I0|split; [rewrite L0; exact L|exact A0]]|].
        split; [reflexivity|]. exists [], []. repeat split. }
    rewrite (v_lp _ _ _ _ _ I) in H. change PING_PERIOD with (60 * SEC)%Z in H. change UPDATE_CHECK_PERIOD with (5 * SEC)%Z in H.
    (* the PING *)
    assert (Hp : exists c1 p, (if (60 * SEC <=? t - last_ping t0 h)%Z then send_ping t c else (c, [])) = (c1, p) /\
      inv c1 (h0 ++ p) /\ c_last_check c1 = c_last_check c /\ c_version c1 = c_version c /\ existsb is_tick p = false /\
      answered (h0 ++ p) /\
      (if (60 * SEC <=? t - last_ping t0 h)%Z then exists n, p = [XQueue t (mk_ping n)] else p = [])).
    { destruct (60 * SEC <=? t - last_ping t0 h)%Z.
      - unfold send_ping. destruct (c_next_id c) as [n c1] eqn:En. pose proof (inv_next_id _ _ _ _ _ _ _ I0 En) as I1.
        assert (En' : c_last_check c1 = c_last_check c /\ c_version c1 = c_version c).
        { unfold c_next_id in En. cbn [next_id] in En. injection En as <- <-. split; reflexivity. }
        unfold send_unconfirmed. rewrite send_control_obs.
        eexists. eexists. split; [reflexivity|].
        pose proof (inv_queue _ _ _ c1 h0 t (mk_ping n) (set_last_ping (set_acks c1 (c_acks c1 ++ [(t, n)])) t) I1 R0 eq_refl) as I2.
        cbn [cm_id mk_ping] in *.
        split.
        { clear -I2. unfold send_control in *. cbn [fst] in *. csimp. destruct (c_task c1); exact I2. }
        csimp. rewrite send_control_check, send_control_version. csimp. destruct En' as [-> ->].
        split; [reflexivity|]. split; [reflexivity|]. split; [reflexivity|]. split.
        + apply answered_keep; [reflexivity| |exact A0]. rewrite answers_app. cbn. apply app_nil_r.
        + exists n. reflexivity.
      - exists c, []. rewrite app_nil_r. auto 10. }
    destruct Hp as (c1 & p & Hp & I1 & L1 & V1 & T1 & A1 & P1). rewrite Hp in H. rewrite L1, L in H.
    (* the UPDATE *)
    assert (Hu : exists c2 u, (if (5 * SEC <=? t - last_check t0 h)%Z then check_for_updates t c1 a b d else (c1, [])) = (c2, u) /\
      inv c2 ((h0 ++ p) ++ u) /\ c_last_check c2 = last_check t0 h0 /\ existsb is_tick u = false /\ answered ((h0 ++ p) ++ u) /\
      (if (5 * SEC <=? t - last_check t0 h)%Z && negb (c_version c =? v_version a)
       then (exists n, u = [XQueue t (mk_update n (table_of_services (v_visible b)))]) /\ c_version c2 = v_version d
       else u = [] /\ c_version c2 = c_version c)).
    { rewrite L0. cbn [andb]. destruct (5 * SEC <=? t - last_check t0 h)%Z; cbn [andb].
      - unfold check_for_updates. rewrite V1. destruct (c_version c =? v_version a); cbn [negb].
        + eexists. exists []. rewrite app_nil_r. split; [reflexivity|]. split.
          * destruct I1 as [J1 J2 J3 J4 J5 J6 J7 J8 J9]. split; auto.
          * csimp. auto 10.
        + unfold send_update. destruct (c_next_id c1) as [n c3] eqn:En. pose proof (inv_next_id _ _ _ _ _ _ _ I1 En) as I2.
          assert (En' : c_last_check c3 = c_last_check c1).
          { unfold c_next_id in En. cbn [next_id] in En. injection En as <- <-. reflexivity. }
          rewrite send_control_obs. eexists. eexists. split; [reflexivity|].
          assert (I3 : inv (set_version c3 (v_version d)) (h0 ++ p)).
          { destruct I2 as [J1 J2 J3 J4 J5 J6 J7 J8 J9]. split; auto. }
          pose proof (inv_queue _ _ _ _ _ t (mk_update n (table_of_services (v_visible b))) (set_version c3 (v_version d)) I3
                        (registered_mono h0 p R0) eq_refl) as I4.
          split; [destruct I4 as [J1 J2 J3 J4 J5 J6 J7 J8 J9]; split; auto|].
          csimp. split; [reflexivity|]. split; [reflexivity|]. split.
          * apply answered_keep; [reflexivity| |exact A1]. rewrite answers_app. cbn. apply app_nil_r.
          * rewrite send_control_version. split; [|reflexivity]. exists n. reflexivity.
      - exists c1, []. rewrite app_nil_r. split; [reflexivity|]. split; [exact I1|]. split; [congruence|].
        split; [reflexivity|]. split; [exact A1|]. auto. }
    destruct Hu as (c2 & u & Hu & I2 & L2 & T2 & A2 & P2). rewrite Hu in H. injection H as <- <- <-.
    rewrite app_assoc. split.
    - split; [exact I2|]. split; [|exact A2]. rewrite L2. rewrite !lcheck_app; auto.
    - split; [reflexivity|]. exists p, u. auto.
  Qed.

  (** ** Explaining histories *)
  Definition why (h1 : list cobs) (x : cobs) (h2 : list cobs) : Prop :=
    match x with
    | XRecv e m => exists t c c' o h3,
        run_ok c h1 /\ handled t e c m None c' o /\ is_closed c' = false /\ h2 = o ++ h3
    | XTick t a b d => exists c c' o h3,
        run_ok c h1 /\ time_event t c a b d = (None, c', o) /\ h2 = o ++ h3
    | XMgr (OOpen sid ty mac ad) => exists h0 e m c svc,
        h1 = h0 ++ [XRecv e m] /\ run_ok c h0 /\ registered h0 = true /\
        mgr_event e m (MConnect (v_get (e_table e)) svc sid) /\
        connect_inner (c_mgr c) (v_get (e_table e)) svc sid = Some (ty, mac, ad)
    | XCmd cmd => exists h0 e m c id ty,
        h1 = h0 ++ [XRecv e m] /\ run_ok c h0 /\ registered h0 = true /\ m_service m = 0 /\
        cmsg_from_bytes (m_payload m) = ROk {| cm_id := id; cm_type := ty; cm_body := BEmpty |} /\
        message_type ty = match cmd with ResetServiceTable => RESET_SVC_TABLE | ScanNetwork => SCAN_NETWORK end
    | _ => True
    end.
  Definition explained (h : list cobs) : Prop := forall h1 x h2, h = h1 ++ x :: h2 -> why h1 x h2.

  Definition calm (x : cobs) : bool :=
    match x with
    | XRecv _ _ | XTick _ _ _ _ | XMgr (OOpen _ _ _ _) | XCmd _ => false
    | XQueue _ m => negb (cm_type m =? 4)
    | _ => true
    end.
  Definition unmarked (x : cobs) : bool :=
    match x with
    | XRecv _ _ | XTick _ _ _ _ | XMgr (OOpen _ _ _ _) | XCmd _ => false
    | _ => true
    end.
  Lemma calm_unmarked o : forallb calm o = true -> forallb unmarked o = true.
  Proof.
    rewrite !forallb_forall. intros H x Hx. specialize (H x Hx). destruct x; try exact H; reflexivity.
  Qed.
  Lemma why_app h1 x h2 o : why h1 x h2 -> why h1 x (h2 ++ o).
  Proof.
    destruct x as [e m|t a b d| |ob| |]; cbn [why]; auto.
    - intros (t & c & c' & o1 & h3 & A & B & C & ->). exists t, c, c', o1, (h3 ++ o). rewrite app_assoc. auto.
    - intros (c & c' & o1 & h3 & A & B & ->). exists c, c', o1, (h3 ++ o). rewrite app_assoc. auto.
  Qed.
  Lemma why_unmarked h1 x h2 : unmarked x = true -> why h1 x h2.
  Proof. destruct x as [| | |[]| |]; cbn; try discriminate; auto. Qed.
  Lemma app_split {A} (h o h1 h2 : list A) x :
    h ++ o = h1 ++ x :: h2 ->
    (exists h2', h = h1 ++ x :: h2' /\ h2 = h2' ++ o) \/ (exists o1, o = o1 ++ x :: h2 /\ h1 = h ++ o1).
  Proof.
    revert h1. induction h as [|y h IH]; intros h1; cbn [app].
    - intros ->. right. exists h1. auto.
    - destruct h1 as [|z h1]; cbn [app]; intros E.
      + injection E as -> <-. left. exists h. auto.
      + injection E as -> E. destruct (IH h1 E) as [(h2' & -> & ->)|(o1 & -> & ->)]; [left|right]; eexists; eauto.
  Qed.
  Lemma explained_app h o :
    explained h -> (forall o1 x o2, o = o1 ++ x :: o2 -> why (h ++ o1) x o2) -> explained (h ++ o).
  Proof.
    intros A B h1 x h2 E. apply app_split in E as [(h2' & -> & ->)|(o1 & -> & ->)].
    - apply why_app. now apply A.
    - now apply B.
  Qed.
  Lemma forallb_mid {A} (f : A -> bool) o1 x o2 : forallb f (o1 ++ x :: o2) = true -> f x = true.
  Proof. rewrite forallb_forall. intros H. apply H. apply in_or_app. right. now left. Qed.
  Lemma explained_calm h o : explained h -> forallb unmarked o = true -> explained (h ++ o).
  Proof.
    intros A B. apply explained_app; [exact A|]. intros o1 x o2 ->. apply why_unmarked.
    eapply forallb_mid; exact B.
  Qed.

  (** Ticks that read the table atomically. *)
  Definition atomic_h (h : list cobs) : Prop := Forall atomic_tick h.
  Lemma announced_calm v h o : forallb (fun x => calm x || is_recv x || negb (unmarked x || is_tick x)) o = true -> announced v (h ++ o) = announced v h.
  Proof.
    unfold announced. rewrite fold_left_app. generalize (fold_left announced_step h (v, v)) as acc.
    induction o as [|x o IH]; intros acc H; [reflexivity|]. cbn [forallb] in H. apply andb_true_iff in H as [H1 H2].
    cbn [fold_left]. replace (announced_step acc x) with acc; [apply IH, H2|].
    destruct x; cbn in H1 |- *; try reflexivity; [discriminate|]. destruct (cm_type m =? 4); [discriminate|reflexivity].
  Qed.

  Variable v2 : view.
  Definition full (c : ctx) (h : list cobs) : Prop :=
    run_ok c h /\ explained h /\ (v1 = v2 -> atomic_h h -> c_version c = v_version (announced v1 h)).

  Lemma full_calm c h c' o :
    full c h -> run_ok c' (h ++ o) -> forallb calm o = true -> c_version c' = c_version c -> full c' (h ++ o).
  Proof.
    intros (_ & B & C) R Q V. split; [exact R|]. split; [apply explained_calm; auto using calm_unmarked|].
    intros Hv Ha. rewrite V. rewrite announced_calm; [apply C; [exact Hv|]|].
    - unfold atomic_h in *. apply Forall_app in Ha. apply Ha.
    - rewrite forallb_forall in *. intros x Hx. rewrite (Q x Hx). reflexivity.
  Qed.

  Lemma handled_obs t e c m c' o :
    handled t e c m None c' o ->
    (forallb calm o = true) \/
    (exists sid ty mac ad svc, o = [XMgr (OOpen sid ty mac ad)] /\ c_established c = true /\
       mgr_event e m (MConnect (v_get (e_table e)) svc sid) /\
       connect_inner (c_mgr c) (v_get (e_table e)) svc sid = Some (ty, mac, ad)) \/
    (exists cmd id ty, o = [XCmd cmd] /\ c_established c = true /\ m_service m = 0 /\
       cmsg_from_bytes (m_payload m) = ROk {| cm_id := id; cm_type := ty; cm_body := BEmpty |} /\
       message_type ty = match cmd with ResetServiceTable => RESET_SVC_TABLE | ScanNetwork => SCAN_NETWORK end).
  Proof.
    intros H. inversion H as [| | |id code t1 rest Ha Hb Hc|id code t1 rest r c1 Ha Hb Hc Hd
                   |me g ob Ha Hb Hc Hd He|q a c1 Ha Hb Hc Hd|id target Ha Hb Hc Hd He|cmd id ty Ha Hb Hc Hd He Hf]; subst; try (left; reflexivity).
    - destruct me as [get svc sid|mm|sid|sid len| |sid tt|ff].
      + cbn [mgr_step] in He. unfold mgr_connect in He. destruct (connect_inner (c_mgr c) get svc sid) as [[[ty mac] ad]|] eqn:Ec.
        * right. left. assert (get = v_get (e_table e)) as ->.
          { destruct Hd as [[_ Hd]|(_ & cm & _ & Hd)]; [discriminate|].
            destruct (message_type (cm_type cm)), (cm_body cm); try contradiction Hd; try discriminate Hd. now injection Hd. }
          injection He as <- <-. exists sid, ty, mac, ad, svc. auto.
        * left. unfold create_hup in He. cbn [next_id] in He. injection He as <- <-. reflexivity.
      + left. cbn [mgr_step] in He. unfold mgr_send in He. cbv zeta in He. destruct (find_sess _ _) as [s|].
        * destruct (sess_step _ _). injection He as <- <-. reflexivity.
        * unfold create_hup in He. cbn [next_id] in He. injection He as <- <-. reflexivity.
      + left. cbn [mgr_step] in He. unfold mgr_close in He. destruct (find_sess _ _) as [s|].
        * destruct (sess_step _ _). injection He as <- <-. reflexivity.
        * injection He as <- <-. reflexivity.
      + left. cbn [mgr_step] in He. unfold mgr_data_ack in He. destruct (find_sess _ _) as [s|].
        * destruct (sess_step _ _). injection He as <- <-. reflexivity.
        * injection He as <- <-. reflexivity.
      + exfalso. destruct Hd as [[_ Hd]|(_ & cm & _ & Hd)]; [discriminate|].
        destruct (message_type (cm_type cm)), (cm_body cm); try contradiction Hd; discriminate Hd.
      + exfalso. destruct Hd as [[_ Hd]|(_ & cm & _ & Hd)]; [discriminate|].
        destruct (message_type (cm_type cm)), (cm_body cm); try contradiction Hd; discriminate Hd.
      + exfalso. destruct Hd as [[_ Hd]|(_ & cm & _ & Hd)]; [discriminate|].
        destruct (message_type (cm_type cm)), (cm_body cm); try contradiction Hd; discriminate Hd.
    - left. unfold answer_to in Hd. destruct q as [id|id|id].
      + injection Hd as <- <-. reflexivity.
      + destruct (c_next_id c) as [n c2]. injection Hd as <- <-. reflexivity.
      + destruct (c_next_id c) as [n c2]. injection Hd as <- <-. reflexivity.
    - right. right. exists cmd, id, ty. auto 10.
  Qed.

  Lemma full_recv c h t e m c' o :
    full c h -> handled t e c m None c' o -> is_closed c' = false -> run_ok c' (h ++ XRecv e m :: o) ->
    c_version c' = c_version c -> full c' (h ++ XRecv e m :: o).
  Proof.
    intros (A & B & C) Hd Hc R V. split; [exact R|].
    destruct (handled_obs _ _ _ _ _ _ Hd) as [Q|[(sid & ty & mac & ad & svc & -> & E1 & E2 & E3)|(cmd & id & ty & -> & E1 & E2 & E3 & E4)]].
    - split.
      + apply explained_app; [exact B|]. intros [|y o1] x o2; cbn [app].
        * intros [= <- <-]. rewrite app_nil_r. cbn [why]. exists t, c, c', o, []. rewrite app_nil_r. auto.
        * intros [= <- ->]. apply why_unmarked. apply calm_unmarked in Q. eapply forallb_mid; exact Q.
      + intros Hv Ha. rewrite V. rewrite announced_calm; [apply C; [exact Hv|]|].
        * unfold atomic_h in *. apply Forall_app in Ha. apply Ha.
        * cbn [forallb]. cbn [calm is_recv orb andb]. rewrite forallb_forall in *. intros x Hx. rewrite (Q x Hx). reflexivity.
    - split.
      + apply explained_app; [exact B|]. intros [|y o1] x o2; cbn [app].
        * intros [= <- <-]. rewrite app_nil_r. cbn [why]. eexists t, c, c', _, []. rewrite app_nil_r. eauto.
        * intros [= <- E]. destruct o1 as [|z o1]; [|destruct o1; discriminate]. injection E as <- <-.
          cbn [why]. exists h, e, m, c, svc. rewrite <- (v_est _ _ _ _ _ (proj1 A)). auto.
      + intros Hv Ha. rewrite V. rewrite announced_calm; [apply C; [exact Hv|]|reflexivity].
        unfold atomic_h in *. apply Forall_app in Ha. apply Ha.
    - split.
      + apply explained_app; [exact B|]. intros [|y o1] x o2; cbn [app].
        * intros [= <- <-]. rewrite app_nil_r. cbn [why]. eexists t, c, c', _, []. rewrite app_nil_r. eauto.
        * intros [= <- E]. destruct o1 as [|z o1]; [|destruct o1; discriminate]. injection E as <- <-.
          cbn [why]. exists h, e, m, c, id, ty. rewrite <- (v_est _ _ _ _ _ (proj1 A)). auto 10.
      + intros Hv Ha. rewrite V. rewrite announced_calm; [apply C; [exact Hv|]|reflexivity].
        unfold atomic_h in *. apply Forall_app in Ha. apply Ha.
  Qed.

  Lemma mgr_poll_obs g g' o : mgr_poll g = (g', o) -> forallb calm (map XMgr o) = true.
  Proof.
    unfold mgr_poll. destruct (g_queue g).
    - assert (Hl : forall n g r g' o, poll_loop n g = (r, g', o) -> forallb calm (map XMgr o) = true).
      { clear. induction n as [|n IH]; intros g r g' o; cbn [poll_loop]; [intros [= <- <- <-]; reflexivity|].
        destruct (g_order g) as [|sid rest]; [apply IH|]. cbv zeta. destruct (find_sess (set_order g rest) sid) as [s|]; [|apply IH].
        destruct (sess_take _ s) as [[[tk s'] f'] ob2]. destruct tk.
        - intros [= <- <- <-]. reflexivity.
        - intros [= <- <- <-]. reflexivity.
        - intros [= <- <- <-]. reflexivity.
        - destruct (poll_loop n _) as [[r1 g3] os] eqn:El. intros [= <- <- <-]. cbn [map forallb calm andb]. eapply IH; eauto. }
      destruct (poll_loop (length (g_order g)) g) as [[r g1] ob] eqn:El. apply Hl in El. destruct r; intros [= <- <-]; exact El.
    - intros [= <- <-]. reflexivity.
  Qed.

  Lemma full_poll c h p c' o :
    full c h -> ctx_poll c = (p, c', o) ->
    (p = PPending /\ full c' (h ++ o) /\ c_run c' = false /\ g_run (c_mgr c') = false) \/
    (exists m, p = PReady m /\ full c' (h ++ o ++ [XSent m])).
  Proof.
    intros F H.
    assert (Q : forallb calm o = true).
    { unfold ctx_poll in H. destruct (is_closed c); [injection H as <- <- <-; reflexivity|].
      destruct (c_messages c); [|injection H as <- <- <-; reflexivity].
      destruct (mgr_poll (c_mgr c)) as [g ob] eqn:Ep. apply mgr_poll_obs in Ep.
      destruct (polled_msg ob); injection H as <- <- <-; exact Ep. }
    destruct (poll_running c h p c' o (proj1 F) H) as [(-> & R & V & W)|(m & -> & R & V)].
    - left. split; [reflexivity|]. split; [|exact W]. eapply full_calm; eauto.
    - right. exists m. split; [reflexivity|]. eapply full_calm; eauto. rewrite forallb_app, Q. reflexivity.
  Qed.

  Lemma full_tick c h t a b d c' o :
    full c h -> time_event t c a b d = (None, c', o) -> full c' (h ++ XTick t a b d :: o).
  Proof.
    intros (A & B & C) H. destruct (tick_shape _ _ _ _ _ _ _ _ _ A H) as (R & Hr & p & u & -> & Hp & Hu).
    split; [exact R|].
    assert (Qp : forallb calm p = true /\ forallb unmarked u = true).
    { split.
      - destruct (registered h && (60 * SEC <=? t - last_ping t0 h)%Z); [destruct Hp as [n ->]; reflexivity|subst p; reflexivity].
      - destruct (registered h && (5 * SEC <=? t - last_check t0 h)%Z && negb (c_version c =? v_version a));
          destruct Hu as [Hu _]; [destruct Hu as [n ->]; reflexivity|subst u; reflexivity]. }
    destruct Qp as [Qp Qu]. split.
    - apply explained_app; [exact B|]. intros [|y o1] x o2; cbn [app].
      + intros [= <- <-]. rewrite app_nil_r. cbn [why]. exists c, c', (p ++ u), []. rewrite app_nil_r. auto.
      + intros [= <- E]. apply why_unmarked. apply calm_unmarked in Qp.
        assert (Q : forallb unmarked (p ++ u) = true) by (rewrite forallb_app, Qp, Qu; reflexivity).
        rewrite E in Q. eapply forallb_mid; exact Q.
    - intros Hv Ha. unfold atomic_h in Ha. apply Forall_app in Ha as [Ha1 Ha2]. apply Forall_inv in Ha2. cbn [atomic_tick] in Ha2. destruct Ha2 as [-> ->].
      specialize (C Hv Ha1).
      assert (E : announced v1 (h ++ XTick t d d d :: p ++ u) = match u with [] => announced v1 h | _ => d end).
      { unfold announced. rewrite fold_left_app. destruct (fold_left announced_step h (v1, v1)) as [x y]. cbn [fold_left announced_step snd].
        rewrite fold_left_app.
        assert (Ep : fold_left announced_step p (d, y) = (d, y)).
        { destruct (registered h && (60 * SEC <=? t - last_ping t0 h)%Z); [destruct Hp as [n ->]; reflexivity|subst p; reflexivity]. }
        rewrite Ep. destruct (registered h && (5 * SEC <=? t - last_check t0 h)%Z && negb (c_version c =? v_version d));
          destruct Hu as [Hu _]; [destruct Hu as [n ->]; reflexivity|subst u; reflexivity]. }
      rewrite E. destruct (registered h && (5 * SEC <=? t - last_check t0 h)%Z && negb (c_version c =? v_version d));
          destruct Hu as [Hu Hw]; rewrite Hw; [destruct Hu as [n ->]; reflexivity|subst u; exact C].
  Qed.

  (** The end of a connection: what a running connection saw last. *)
  Inductive cause (c : ctx) : list cobs -> cresult -> Prop :=
  | Ca_msg t e m k c' : handled t e c m (Some k) c' [] -> k <> EPanic -> cause c [XRecv e m] (Failed k)
  | Ca_redirect t e m c' target :
      handled t e c m None c' [] -> c_redirect c' = Some target -> cause c [XRecv e m] (Redirected target)
  | Ca_fail k : k = OtherError \/ k = ConnectionError -> cause c [] (Failed k)
  | Ca_tick t a b d c' o :
      time_event t c a b d = (Some ConnectionError, c', o) -> cause c (XTick t a b d :: o) (Failed ConnectionError).

  Lemma ended_poll c : is_closed c = true -> ctx_poll c = (PEnd, c, []).
  Proof. intros H. unfold ctx_poll. now rewrite H. Qed.
  Lemma ended_loop c items : is_closed c = true -> client_loop c items = (PEnd, c, []).
  Proof. intros H. destruct items; cbn [client_loop]; rewrite (ended_poll c H); reflexivity. Qed.

  Definition outcome (c : ctx) (h : list cobs) (c' : ctx) (o : list cobs) (p : polled) : Prop :=
    (p = PPending /\ full c' (h ++ o)  /\ c_run c' = false /\ g_run (c_mgr c') = false) \/
    (exists m, p = PReady m /\ full c' (h ++ o ++ [XSent m]) ) \/
    (exists k c0 o0 o1, p = PError k /\ o = o0 ++ o1 /\ full c0 (h ++ o0) /\ cause c0 o1 (Failed k)) \/
    (exists c0 o0 o1, p = PEnd /\ o = o0 ++ o1 /\ full c0 (h ++ o0) /\ cause c0 o1 (final_result c')).

  Lemma handled_closed t e c m r c' o : handled t e c m r c' o -> c_closed c' = c_closed c.
  Proof.
    intros []; try reflexivity.
    - rewrite handshake_cases in *. destruct (code =? 0); [|injection H2 as <- <-; reflexivity].
      injection H2 as <- <-. destruct (e_diagnostic e); reflexivity.
    - unfold answer_to in H2. unfold send_control. cbn [fst]. csimp.
      assert (c_closed c1 = c_closed c).
      { destruct r0; [injection H2 as <- <-; reflexivity| |]; unfold c_next_id in H2; cbn [next_id] in H2;
          injection H2 as <- <-; reflexivity. }
      destruct (c_task c1); csimp; assumption.
    - unfold redirected. csimp. destruct (c_task c); reflexivity.
  Qed.

  Lemma feed_outcome c h it r c' o :
    full c h -> feed_item c it = (r, c', o) ->
    (r = None /\ is_closed c' = false /\ full c' (h ++ o) ) \/
    (exists k, r = Some k /\ cause c o (Failed k)) \/
    (r = None /\ is_closed c' = true /\ cause c o (final_result c')).
  Proof.
    intros R H. destruct it as [t e m| |]; cbn [feed_item] in H.
    - apply process_handled in H; [|apply open_not_closed, (v_open _ _ _ _ _ (proj1 (proj1 R)))].
      destruct H as (o' & -> & Hd). destruct (feed_running _ _ _ _ _ _ _ _ (proj1 R) Hd) as [(A & B & C & D)|(A & [(k & B & C)|(B & tgt & C)])].
      + left. subst r. split; [reflexivity|]. split; [exact B|]. eapply full_recv; eauto.
      + subst o' r. right. left. exists k. split; [reflexivity|]. eapply Ca_msg; eauto.
      + subst o' r. right. right. split; [reflexivity|].
        unfold is_closed, final_result. rewrite C. split; [apply orb_true_r|]. eapply Ca_redirect; eauto.
    - injection H as <- <- <-. right. left. exists OtherError. split; [reflexivity|]. apply Ca_fail. now left.
    - injection H as <- <- <-. right. right. split; [reflexivity|]. split; [reflexivity|].
      unfold final_result. csimp. destruct (v_open _ _ _ _ _ (proj1 (proj1 R))) as [_ ->]. apply Ca_fail. now right.
  Qed.

  Lemma loop_outcome : forall items c h p c' o,
    full c h -> client_loop c items = (p, c', o) -> outcome c h c' o p.
  Proof.
    induction items as [|it items IH]; intros c h p c' o R; cbn [client_loop];
      destruct (ctx_poll c) as [[p1 c1] o1] eqn:Ep; destruct (full_poll c h p1 c1 o1 R Ep) as [(-> & R1 & W1 & W2)|(m & -> & R1)].
    - intros [= <- <- <-]. left. auto.
    - intros [= <- <- <-]. right. left. eauto.
    - destruct (feed_item c1 it) as [[r c2] o2] eqn:Ef.
      destruct (feed_outcome c1 _ it r c2 o2 R1 Ef) as [(-> & B & C)|[(k & -> & C)|(-> & B & C)]].
      + rewrite <- app_assoc in C. destruct (client_loop c2 items) as [[p3 c3] o3] eqn:El. intros [= <- <- <-].
        specialize (IH c2 _ _ _ _ C El). rewrite (app_assoc o1 o2 o3).
        destruct IH as [(-> & K1 & K3)|[(m & -> & K1)|[(k & c0 & a & b & -> & -> & K1 & K2)|(c0 & a & b & -> & -> & K1 & K2)]]].
        * left. split; [reflexivity|]. rewrite <- app_assoc in K1. split; [|exact K3]. rewrite <- !app_assoc in *. exact K1.
        * right. left. exists m. split; [reflexivity|]. rewrite <- !app_assoc in *. exact K1.
        * right. right. left. exists k, c0, ((o1 ++ o2) ++ a), b. rewrite <- !app_assoc in *. auto.
        * right. right. right. exists c0, ((o1 ++ o2) ++ a), b. rewrite <- !app_assoc in *. auto.
      + intros [= <- <- <-]. right. right. left. exists k, c1, o1, o2. auto.
      + rewrite (ended_loop c2 items B). intros [= <- <- <-]. right. right. right. rewrite app_nil_r. exists c1, o1, o2. auto.
    - intros [= <- <- <-]. right. left. eauto.
  Qed.

  Lemma client_poll_outcome items c h p c' o :
    full c h -> client_poll c items = (p, c', o) -> outcome c h c' o p.
  Proof.
    intros R. destruct items as [|it items]; cbn [client_poll]; [apply loop_outcome; exact R|].
    destruct (feed_item c it) as [[r c2] o2] eqn:Ef.
    destruct (feed_outcome c _ it r c2 o2 R Ef) as [(-> & B & C)|[(k & -> & C)|(-> & B & C)]].
    - destruct (client_loop c2 items) as [[p3 c3] o3] eqn:El. intros [= <- <- <-].
      destruct (loop_outcome items c2 _ _ _ _ C El) as [(-> & K1 & K3)|[(m & -> & K1)|[(k & c0 & a & b & -> & -> & K1 & K2)|(c0 & a & b & -> & -> & K1 & K2)]]].
      + left. rewrite <- !app_assoc in *. split; [reflexivity|]. split; [exact K1|exact K3].
      + right. left. exists m. split; [reflexivity|]. rewrite <- !app_assoc in *. exact K1.
      + right. right. left. exists k, c0, (o2 ++ a), b. rewrite <- !app_assoc in *. auto.
      + right. right. right. exists c0, (o2 ++ a), b. rewrite <- !app_assoc in *. auto.
    - intros [= <- <- <-]. right. right. left. exists k, c, [], o2. rewrite app_nil_r. auto.
    - rewrite (ended_loop c2 items B). intros [= <- <- <-]. right. right. right. rewrite app_nil_r. exists c, [], o2. rewrite app_nil_r. auto.
  Qed.

  (** ** Whole connections *)
  Definition reached (k : conn) (h : list cobs) : Prop :=
    match k_result k with
    | None => full (k_ctx k) h
    | Some r => exists c h0 o, full c h0 /\ cause c o r /\ h = h0 ++ o
    end.

  Lemma transport_obs g sid te g' o : mgr_step g (MTransport sid te) = (g', o) -> forallb calm (map XMgr o) = true.
  Proof.
    cbn [mgr_step]. destruct (find_sess g sid) as [s|]; [|intros [= <- <-]; reflexivity].
    destruct (sess_step s (sev_of te)). intros [= <- <-]. reflexivity.
  Qed.

  Lemma step_reached k h e k' o : reached k h -> conn_step k e = (k', o) -> reached k' (h ++ o).
  Proof.
    unfold reached at 1, conn_step. destruct (k_result k) as [r|] eqn:Er.
    - intros H [= <- <-]. rewrite app_nil_r. unfold reached. rewrite Er. exact H.
    - intros R. destruct e as [items|t a b d| |sid te].
      + destruct (client_poll (k_ctx k) items) as [[p c1] o1] eqn:Ep.
        destruct (client_poll_outcome _ _ _ _ _ _ R Ep) as [(-> & K1 & K2)|[(m & -> & K1)|[(kd & c0 & x & y & -> & -> & K1 & K2)|(c0 & x & y & -> & -> & K1 & K2)]]];
          intros [= <- <-]; unfold reached; cbn [k_result k_ctx].
        * exact K1.
        * exact K1.
        * exists c0, (h ++ x), y. rewrite app_assoc. auto.
        * exists c0, (h ++ x), y. rewrite app_assoc. auto.
      + rewrite (open_not_closed _ (v_open _ _ _ _ _ (proj1 (proj1 R)))).
        destruct (time_event t (k_ctx k) a b d) as [[r c1] o1] eqn:Et. intros [= <- <-].
        destruct (tick_shape _ _ _ _ _ _ _ _ _ (proj1 R) Et) as (R1 & Hr & _). unfold reached. cbn [k_result k_ctx].
        destruct (ack_timeout t c1); subst r; [|eapply full_tick; eauto].
        exists (k_ctx k), h, (XTick t a b d :: o1). split; [exact R|]. split; [|reflexivity]. eapply Ca_tick; eauto.
      + intros [= <- <-]. unfold reached. cbn [k_result]. exists (k_ctx k), h, []. split; [exact R|]. split; [|reflexivity].
        apply Ca_fail. now left.
      + destruct (lift_mgr (k_ctx k) (mgr_step (c_mgr (k_ctx k)) (MTransport sid te))) as [c1 o1] eqn:El. intros [= <- <-].
        unfold lift_mgr in El. destruct (mgr_step _ _) as [g ob] eqn:Es. injection El as <- <-.
        unfold reached. cbn [k_result k_ctx]. eapply full_calm; [exact R| |eapply transport_obs; eauto|reflexivity].
        destruct R as ((I & L & A) & _). split; [eapply inv_transport; eauto|].
        csimp. split; [rewrite lcheck_app by apply tick_mgr; exact L|].
        apply answered_keep; [apply recv_mgr|apply answers_mgr|exact A].
  Qed.

  Lemma run_reached es : forall k h k' o, reached k h -> conn_run k es = (k', o) -> reached k' (h ++ o).
  Proof.
    induction es as [|e es IH]; intros k h k' o R; cbn [conn_run].
    - intros [= <- <-]. now rewrite app_nil_r.
    - destruct (conn_step k e) as [k1 o1] eqn:E1. destruct (conn_run k1 es) as [k2 o2] eqn:E2. intros [= <- <-].
      rewrite app_assoc. eapply IH; [|exact E2]. eapply step_reached; eauto.
  Qed.

  Lemma connection_reached es k h : connection t0 i v1 v2 es = (k, h) -> reached k h.
  Proof.
    unfold connection, conn_new. pose proof (inv_new t0 i v1 v2) as I. destruct (ctx_new t0 i v1 v2) as [c o] eqn:Ec.
    cbn [fst snd] in I. destruct (conn_run _ es) as [k' o'] eqn:Er. intros [= <- <-].
    eapply run_reached; [|exact Er]. unfold reached. cbn [k_result k_ctx].
    assert (o = [XQueue t0 (reg_msg i v1)] /\ c_last_check c = t0) as [-> _].
    { destruct (v_first _ _ _ _ _ I) as (rest & Ho & _). assert (exists x, o = [x]) as [x ->].
      { unfold ctx_new in Ec. cbn in Ec. injection Ec as _ <-. eexists. reflexivity. }
      split; [congruence|]. apply (f_equal fst) in Ec. cbn [fst] in Ec. subst c. reflexivity. }
    split; [split; [exact I|split; [|constructor]]|split].
    - apply (f_equal fst) in Ec. cbn [fst] in Ec. subst c. reflexivity.
    - apply (explained_calm [] [XQueue t0 (reg_msg i v1)]); [|reflexivity]. intros [|? ?] ? ? E; discriminate.
    - intros <- _. apply (f_equal fst) in Ec. cbn [fst] in Ec. subst c. reflexivity.
  Qed.
End Run.
