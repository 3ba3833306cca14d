(** Proofs about what the server believes. *)
From Coq Require Import NArith ZArith List Bool Lia Permutation.
From Coq Require Import ZifyBool ZifyNat ZifyN.
From Verif.Model Require Import Bytes Frame Service Control Alist SvcTable Session Manager Client Config.
From Verif.Spec Require Import ControlSpec ClientSpec TableSpec ConfigSpec ReachSpec CurrentSpec.
From Verif.Proofs Require Import ControlProofs ControlReaders TableProofs TablePropsPf ClientProofs ClientInv ClientRun ClientPropsPf ClientPropsPf2 ReachPf.
Import ListNotations.
Local Open Scope N_scope.

(** ** Everything but a tick leaves the lists alone *)
Definition silent (x : cobs) : Prop :=
  match x with
  | XQueue _ m => cm_type m = 0 \/ cm_type m = 1 \/ cm_type m = 9 \/ cm_type m = 11
  | XTick _ _ _ _ => False
  | _ => True
  end.
Lemma silent_mgr o : Forall silent (map XMgr o).
Proof. apply Forall_forall. intros x Hx. apply in_map_iff in Hx as (y & <- & _). exact Logic.I. Qed.
Lemma control_silent t e c m r c' o : process_control t e c m = (r, c', o) -> Forall silent o.
Proof.
  intros H. unfold process_control in H. cbv zeta in H.
  destruct (message_type (cm_type m)); destruct (cm_body m); try (injection H as <- <- <-; constructor);
    try (destruct (process_ack _ _ _ _) as [? ?]; injection H as <- <- <-; constructor);
    (destruct (c_established c); [|injection H as <- <- <-; constructor]); unfold lift_mgr in H; cbn [c_next_id next_id] in H;
    try (destruct (mgr_connect _ _ _ _)); try (destruct (mgr_data_ack _ _ _)); try (destruct (mgr_close _ _)); cbn [fst snd] in H;
    injection H as <- <- <-; try apply silent_mgr; try (constructor; fail);
    (constructor; [|constructor]); try exact Logic.I; cbn; auto 6.
Qed.
Lemma message_silent t e c m r c' o : process_message t e c m = (r, c', o) -> Forall silent o.
Proof.
  intros H. unfold process_message in H. destruct (is_closed c); [injection H as <- <- <-; constructor|].
  destruct (m_service m =? 0).
  - destruct (cmsg_from_bytes (m_payload m)) as [cm| |] eqn:D;
      [|injection H as <- <- <-; constructor; [exact Logic.I|constructor]..].
    destruct (process_control t e c cm) as [[r1 c1] o1] eqn:C. injection H as <- <- <-.
    constructor; [exact Logic.I|]. exact (control_silent _ _ _ _ _ _ _ C).
  - destruct (c_established c); [|injection H as <- <- <-; constructor; [exact Logic.I|constructor]].
    unfold lift_mgr in H. destruct (mgr_send (c_mgr c) m). injection H as <- <- <-. constructor; [exact Logic.I|apply silent_mgr].
Qed.
Lemma poll_silent c p c' o : ctx_poll c = (p, c', o) -> Forall silent o.
Proof.
  unfold ctx_poll. destruct (is_closed c); [intros E; injection E as <- <- <-; constructor|].
  destruct (c_messages c); [|intros E; injection E as <- <- <-; constructor].
  destruct (mgr_poll (c_mgr c)) as [g om]. destruct (polled_msg om); intros E; injection E as <- <- <-; apply silent_mgr.
Qed.
Lemma feed_silent c x r c' o : feed_item c x = (r, c', o) -> Forall silent o.
Proof.
  destruct x as [t e m| |]; cbn [feed_item]; [|intros E; injection E as <- <- <-; constructor..].
  intros E. exact (message_silent _ _ _ _ _ _ _ E).
Qed.
Lemma loop_silent : forall items c p c' o, client_loop c items = (p, c', o) -> Forall silent o.
Proof.
  induction items as [|x items IH]; intros c p c' o H; cbn [client_loop] in H;
    destruct (ctx_poll c) as [[p1 c1] o1] eqn:P; pose proof (poll_silent _ _ _ _ P) as K1;
    destruct p1; try (injection H as <- <- <-; exact K1).
  destruct (feed_item c1 x) as [[r c2] o2] eqn:Fi. pose proof (feed_silent _ _ _ _ _ Fi) as K2.
  destruct r; [injection H as <- <- <-; apply Forall_app; auto|].
  destruct (client_loop c2 items) as [[p3 c3] o3] eqn:L. injection H as <- <- <-. rewrite !Forall_app. eauto.
Qed.
Definition no_tick (e : kev) : Prop := match e with KTick _ _ _ _ => False | _ => True end.
Lemma step_silent k e k' o : no_tick e -> conn_step k e = (k', o) -> Forall silent o /\ c_version (k_ctx k') = c_version (k_ctx k).
Proof.
  intros Hn H. split.
  - unfold conn_step in H. destruct (k_result k); [injection H as <- <-; constructor|].
    destruct e as [items|t a b d| |sid te]; [|contradiction| |].
    + assert (X : forall p c1 o1, client_poll (k_ctx k) items = (p, c1, o1) -> Forall silent o1).
      { intros p c1 o1 P. destruct items as [|x items]; cbn [client_poll] in P; [exact (loop_silent _ _ _ _ _ P)|].
        destruct (feed_item (k_ctx k) x) as [[r c2] o2] eqn:Fi. pose proof (feed_silent _ _ _ _ _ Fi) as K2.
        destruct r; [injection P as <- <- <-; exact K2|].
        destruct (client_loop c2 items) as [[p3 c3] o3] eqn:L. injection P as <- <- <-. rewrite Forall_app. split; [exact K2|].
        exact (loop_silent _ _ _ _ _ L). }
      destruct (client_poll (k_ctx k) items) as [[p c1] o1] eqn:P. specialize (X _ _ _ eq_refl).
      destruct p; injection H as <- <-; try exact X. apply Forall_app. split; [exact X|constructor; [exact Logic.I|constructor]].
    + injection H as <- <-. constructor.
    + unfold lift_mgr in H. destruct (mgr_step (c_mgr (k_ctx k)) (MTransport sid te)). injection H as <- <-. apply silent_mgr.
  - set (v := {| v_visible := []; v_version := c_version (k_ctx k); v_get := fun _ => None |}).
    assert (He : match e with KPoll items => True | _ => only_sees v e end) by (destruct e; cbn; auto; contradiction).
    unfold conn_step in H. destruct (k_result k); [injection H as <- <-; reflexivity|].
    destruct e as [items|t a b d| |sid te]; [|contradiction| |].
    + destruct items as [|x items]; cbn [client_poll] in H.
      * destruct (client_loop (k_ctx k) []) as [[p c1] o1] eqn:L. destruct (loop_version _ _ _ _ _ L) as [W _].
        destruct p; injection H as <- <-; exact W.
      * destruct (feed_item (k_ctx k) x) as [[r c2] o2] eqn:Fi. destruct (feed_version _ _ _ _ _ Fi) as [W _].
        destruct r; [injection H as <- <-; exact W|].
        destruct (client_loop c2 items) as [[p c1] o1] eqn:L. destruct (loop_version _ _ _ _ _ L) as [W' _].
        destruct p; injection H as <- <-; cbn [k_ctx]; congruence.
    + injection H as <- <-. reflexivity.
    + unfold lift_mgr in H. destruct (mgr_step (c_mgr (k_ctx k)) (MTransport sid te)). injection H as <- <-. reflexivity.
Qed.

(** ** What the server reads *)
Definition believe (acc : list entry) (x : cobs) : list entry :=
  match x with
  | XQueue _ m => match listed (m_payload (amsg_of_cmsg m)) with Some es => es | None => acc end
  | _ => acc
  end.
Lemma believes_app h o : believes (h ++ o) = fold_left believe o (believes h).
Proof. unfold believes. rewrite fold_left_app. reflexivity. Qed.
Lemma unlisted m : cm_type m = 0 \/ cm_type m = 1 \/ cm_type m = 9 \/ cm_type m = 11 -> listed (cmsg_encode m) = None.
Proof.
  intros H. assert (L : cm_type m < 65536) by lia. unfold listed.
  destruct (read_register (cmsg_encode m)) as [[id r]|] eqn:R; [apply read_register_type in R; [lia|exact L]|].
  destruct (read_update (cmsg_encode m)) as [[id r]|] eqn:U; [apply read_update_type in U; [lia|exact L]|]. reflexivity.
Qed.
Lemma silent_believes o : Forall silent o -> forall acc, fold_left believe o acc = acc.
Proof.
  induction 1 as [|x o Hx F IH]; intros acc; cbn [fold_left]; [reflexivity|]. rewrite IH. destruct x; try reflexivity.
  cbn [believe]. change (m_payload (amsg_of_cmsg m)) with (cmsg_encode m). cbn in Hx. now rewrite unlisted.
Qed.
Lemma silent_ticks o : Forall silent o -> existsb is_tick o = false.
Proof. induction 1 as [|x o Hx F IH]; cbn [existsb]; [reflexivity|]. rewrite IH. destruct x; try reflexivity. contradiction. Qed.

(** ** The service table *)
Lemma changes_app hash a b : forall t t1, tbl_run hash t a = ROk t1 ->
  shown_changes hash t (a ++ b) = shown_changes hash t a + shown_changes hash t1 b.
Proof.
  unfold shown_changes. induction a as [|o a IH]; cbn [tbl_run app moments map total fold_right]; intros t t1 H.
  - now injection H as ->.
  - destruct (tbl_step hash t o) as [t2| |]; try discriminate. cbn [map fold_right]. fold (total (map (fun p => differing (shown (fst p)) (shown (snd p)) (map fst (t_map (snd p)))) (moments hash t2 (a ++ b)))).
    rewrite (IH _ _ H). unfold total. cbn [fold_right]. lia.
Qed.

Section World.
  Variable hash : ident -> N.
  Variable t0 : Z.
  Variable i : identity.
  Variable tb : table.
  Hypothesis K : consistent tb.
  Hypothesis Ht : forall id s, stored tb id = Some s -> plain s.
  Hypothesis Wi : wf_identity i.

  Definition good_ops (os : list top) : Prop :=
    built_ops os /\ (forall now s, In (now, s) (adds os) -> plain s) /\ shown_changes hash tb os < 2 ^ 32.

  Lemma shown_in t' os : good_ops os -> moment hash tb os t' ->
    forall p, In p (tbl_visible t') <-> shown t' (fst p) = Some (snd p).
  Proof using K.
    intros (B & _) P p. pose proof (visible_ids hash tb os K B t' P) as N0. unfold shown. split.
    - intros H. destruct p as [a b]. cbn [fst snd]. apply alookup_unique; auto.
    - intros H. destruct p as [a b]. cbn [fst snd] in H. apply alookup_in in H. exact H.
  Qed.
  Lemma entries_right t' os es : good_ops os -> moment hash tb os t' -> Permutation es (map announce (tbl_visible t')) -> right_about t' es.
  Proof using K.
    intros G P Pm x. split.
    - intros H. apply (Permutation_in x Pm) in H. apply in_map_iff in H as ((id & s) & <- & H).
      exists id, s. split; [|reflexivity]. exact (proj1 (shown_in t' os G P (id, s)) H).
    - intros (id & s & S & ->). apply (Permutation_in (announce (id, s)) (Permutation_sym Pm)). apply in_map.
      exact (proj2 (shown_in t' os G P (id, s)) S).
  Qed.
  Lemma update_right t' os n acc : good_ops os -> moment hash tb os t' -> n < 2 ^ 16 ->
    right_about t' (believe acc (XQueue 0 (mk_update n (table_of_services (tbl_visible t'))))).
  Proof using K Ht.
    intros G P Hn. destruct G as (B & Ho & Hc). destruct (visible_entries hash tb os K B Ht Ho t' P) as [W F].
    destruct (update_recovered (tbl_visible t') (table_of_services (tbl_visible t')) n Hn
      (visible_ids hash tb os K B t' P) W F (Permutation_refl _)) as (es' & R' & Pm).
    cbn [believe]. change (m_payload (amsg_of_cmsg ?m)) with (cmsg_encode m). unfold listed. rewrite R'.
    destruct (read_register _) as [[id r]|] eqn:R; [apply read_register_type in R; [discriminate|reflexivity]|].
    exact (entries_right t' os es' (conj B (conj Ho Hc)) P Pm).
  Qed.
  Lemma register_right os acc : good_ops os -> right_about tb (believe acc (XQueue 0 (reg_msg i (view_of tb)))).
  Proof using K Ht Wi.
    intros G. destruct G as (B & Ho & Hc). destruct Wi as (I1 & I2 & I3 & I4).
    assert (P : moment hash tb os tb) by (exists [], os; auto).
    destruct (visible_entries hash tb os K B Ht Ho tb P) as [W F].
    assert (M : mk_register 0 (id_uuid i) (id_key i) (id_mac i) 65536 (id_gateway i) (table_of_services (tbl_visible tb)) (id_info i) =
      ROk (reg_msg i (view_of tb))) by (unfold reg_msg; destruct (id_gateway i); reflexivity).
    destruct (register_recovered 0 _ _ _ _ _ (tbl_visible tb) _ _ _ eq_refl I1 I2 I3 I4
      (visible_ids hash tb os K B tb P) W F (Permutation_refl _) M) as (es' & R' & Pm).
    cbn [believe]. change (m_payload (amsg_of_cmsg ?m)) with (cmsg_encode m). unfold listed. rewrite R'. cbn [g_table].
    exact (entries_right tb os es' (conj B (conj Ho Hc)) P Pm).
  Qed.
  Lemma right_same a b es : (forall id, shown a id = shown b id) -> right_about a es -> right_about b es.
  Proof using. clear. intros E R x. rewrite (R x). split; intros (id & s & S & ->); exists id, s; split; auto; congruence. Qed.

  (** ** Both together *)
  Definition wok (w : world) (os : list top) : Prop :=
    (exists es, connection t0 i (view_of tb) (view_of tb) es = (w_conn w, w_seen w)) /\
    w_when w = last_check t0 (w_seen w) /\
    exists oa oc ob ta, os = oa ++ oc ++ ob /\
      tbl_run hash tb oa = ROk ta /\ tbl_run hash ta oc = ROk (w_checked w) /\ tbl_run hash (w_checked w) ob = ROk (w_table w) /\
      (forall id, shown ta id = shown (w_checked w) id) /\
      c_version (k_ctx (w_conn w)) = t_vversion ta /\ right_about ta (believes (w_seen w)).

  Lemma connection_snoc es k h e k' o v1 v2 : connection t0 i v1 v2 es = (k, h) -> conn_step k e = (k', o) ->
    connection t0 i v1 v2 (es ++ [e]) = (k', h ++ o).
  Proof using.
    clear. unfold connection. destruct (conn_new t0 i v1 v2) as [k0 o0].
    assert (X : forall l k0 k h, conn_run k0 l = (k, h) -> conn_step k e = (k', o) -> conn_run k0 (l ++ [e]) = (k', h ++ o)).
    { induction l as [|x es0 IH]; intros ka kb hb; cbn [app conn_run].
      - intros E S. injection E as <- <-. rewrite S. cbn [app]. now rewrite app_nil_r.
      - destruct (conn_step ka x) as [k1 o1]. destruct (conn_run k1 es0) as [k2 o2] eqn:R. intros E S. injection E as <- <-.
        rewrite (IH _ _ _ R S). now rewrite app_assoc. }
    destruct (conn_run k0 es) as [k1 h1] eqn:R. intros E S. injection E as <- <-. rewrite (X _ _ _ _ R S). now rewrite app_assoc.
  Qed.

  Lemma new_ok os : good_ops os -> wok (world_new t0 i tb) [].
  Proof using K Ht Wi.
    intros G. unfold world_new. destruct (connection t0 i (view_of tb) (view_of tb) []) as [k h] eqn:E.
    split; [exists []; exact E|]. cbn [w_conn w_seen w_when w_table w_checked].
    assert (X : h = [XQueue t0 (reg_msg i (view_of tb))] /\ c_version (k_ctx k) = t_vversion tb).
    { clear -E. unfold connection, conn_new, conn_run in E. unfold reg_msg.
      destruct i as [a b c d g]. destruct g; injection E as <- <-; split; reflexivity. }
    destruct X as [-> V]. split; [reflexivity|].
    exists [], [], [], tb. cbn [app tbl_run]. do 5 (split; [reflexivity|]). split; [exact V|].
    exact (register_right os [] G).
  Qed.

  Lemma good_prefix a b : good_ops (a ++ b) -> (exists t1, tbl_run hash tb a = ROk t1) -> good_ops a.
  Proof using.
    clear t0 i K Ht Wi. intros (B & Ho & Hc) (t1 & R). unfold built_ops in *. rewrite adds_app in *. apply Forall_app in B as [B _].
    split; [exact B|]. split; [intros now s H; apply (Ho now), in_or_app; now left|].
    rewrite (changes_app _ _ _ _ _ R) in Hc. lia.
  Qed.

  Lemma tick_ok w os t w' : good_ops os -> wok w os -> world_step hash w (HTick t) = ROk w' -> wok w' os.
  Proof using K Ht.
    intros G ((es & C) & Hw & oa & oc & ob & ta & Eo & Ra & Rc & Rb & Sh & Ve & Ri) H.
    cbn [world_step] in H. cbv zeta in H.
    destruct (conn_step (w_conn w) (KTick t (view_of (w_table w)) (view_of (w_table w)) (view_of (w_table w)))) as [k o] eqn:S.
    injection H as <-.
    pose proof (connection_snoc _ _ _ _ _ _ _ _ C S) as C'.
    destruct (k_result (w_conn w)) as [res|] eqn:Hr.
    - (* over *)
      assert (X : k = w_conn w /\ o = []) by (unfold conn_step in S; rewrite Hr in S; injection S as <- <-; auto). destruct X as [-> ->].
      assert (Ic : is_check w t = false) by (unfold is_check, running; now rewrite Hr).
      unfold wok. rewrite Ic. cbn [w_conn w_seen w_when w_table w_checked]. rewrite app_nil_r in *.
      split; [eauto|]. split; [exact Hw|]. exists oa, oc, ob, ta. auto 10.
    - pose proof (running_full _ _ _ _ _ _ _ C Hr) as F.
      destruct (tick_step _ _ _ _ _ _ _ _ _ _ _ _ F Hr S) as (p & u & -> & _ & _ & Hp & Hu).
      assert (Ic : is_check w t = registered (w_seen w) && (5 * SEC <=? t - last_check t0 (w_seen w))%Z)
        by (unfold is_check, running; rewrite Hr, Hw; reflexivity).
      assert (Sp : Forall silent p) by (destruct (_ && _) in Hp; [destruct Hp as [n ->]|subst p]; constructor; [cbn; auto|constructor]).
      assert (Tu : existsb is_tick u = false).
      { destruct (_ && negb _) in Hu; [destruct Hu as [n ->]|subst u]; reflexivity. }
      assert (Lc : last_check t0 (w_seen w ++ XTick t (view_of (w_table w)) (view_of (w_table w)) (view_of (w_table w)) :: p ++ u) =
        if is_check w t then t else w_when w).
      { change (XTick t ?a ?b ?c :: p ++ u) with ([XTick t a b c] ++ (p ++ u)). rewrite app_assoc, lcheck_app.
        - rewrite lcheck_snoc, Ic, Hw. reflexivity.
        - rewrite existsb_app, Tu, (silent_ticks _ Sp). reflexivity. }
      assert (Be : believes (w_seen w ++ XTick t (view_of (w_table w)) (view_of (w_table w)) (view_of (w_table w)) :: p ++ u) =
        fold_left believe u (believes (w_seen w))).
      { rewrite believes_app. cbn [fold_left believe]. rewrite fold_left_app, (silent_believes _ Sp). reflexivity. }
      split; [cbn [w_conn w_seen]; eauto|]. cbn [w_conn w_seen w_when w_table w_checked]. split; [now rewrite Lc|]. rewrite Be.
      (* the version *)
      assert (Vk : c_version (k_ctx k) = if is_check w t && negb (c_version (k_ctx (w_conn w)) =? t_vversion (w_table w))
                     then t_vversion (w_table w) else c_version (k_ctx (w_conn w))).
      { destruct F as (R & _). pose proof (open_not_closed _ (v_open _ _ _ _ _ (proj1 R))) as Op.
        unfold conn_step in S. rewrite Hr, Op in S. unfold time_event in S.
        rewrite (v_est _ _ _ _ _ (proj1 R)) in S. rewrite Ic.
        pose proof (proj1 (proj2 R)) as Lk.
        destruct (registered (w_seen w)); cbn [andb].
        2:{ injection S as <- _. reflexivity. }
        assert (Pv : forall c1 o1, (if (PING_PERIOD <=? t - c_last_ping (k_ctx (w_conn w)))%Z then send_ping t (k_ctx (w_conn w)) else (k_ctx (w_conn w), [])) = (c1, o1) ->
          c_version c1 = c_version (k_ctx (w_conn w)) /\ c_last_check c1 = c_last_check (k_ctx (w_conn w))).
        { intros c1 o1. destruct (_ <=? _)%Z; [|intros E; injection E as <- <-; auto].
          unfold send_ping, c_next_id. cbn [next_id]. unfold send_unconfirmed, send_control.
          intros E; injection E as <- <-. csimp. destruct (c_task (k_ctx (w_conn w))); split; reflexivity. }
        destruct (if (PING_PERIOD <=? t - c_last_ping (k_ctx (w_conn w)))%Z then send_ping t (k_ctx (w_conn w)) else (k_ctx (w_conn w), [])) as [c1 o1] eqn:Ep.
        destruct (Pv _ _ eq_refl) as [P1 P2]. rewrite P2, Lk in S. change UPDATE_CHECK_PERIOD with (5 * SEC)%Z in S.
        destruct (5 * SEC <=? t - last_check t0 (w_seen w))%Z; cbn [andb].
        - unfold check_for_updates in S. rewrite P1 in S. cbn [view_of v_version] in S.
          destruct (c_version (k_ctx (w_conn w)) =? t_vversion (w_table w)) eqn:Q; cbn [negb].
          + injection S as <- _. cbn [k_ctx]. exact P1.
          + unfold send_update, c_next_id in S. cbn [next_id] in S. unfold send_control in S. injection S as <- _. cbn [k_ctx]. csimp. destruct (c_task c1); reflexivity.
        - injection S as <- _. exact P1. }
      rewrite <- Ic in Hu. cbn [view_of v_version v_visible] in Hu.
      assert (Rw : tbl_run hash ta (oc ++ ob) = ROk (w_table w)) by (rewrite (run_app _ _ _ _ _ Rc); exact Rb).
      assert (Pw : moment hash tb os (w_table w)).
      { exists os, []. split; [now rewrite app_nil_r|]. rewrite Eo, (run_app _ _ _ _ _ Ra). exact Rw. }
      destruct (is_check w t); cbn [andb] in Hu, Vk.
      + destruct (N.eqb_spec (c_version (k_ctx (w_conn w))) (t_vversion (w_table w))) as [Q|Q]; cbn [negb] in Hu, Vk.
        * (* nothing changed since *)
          subst u. cbn [fold_left]. exists oa, (oc ++ ob), [], ta. rewrite app_nil_r. cbn [tbl_run].
          split; [exact Eo|]. split; [exact Ra|]. split; [exact Rw|]. split; [reflexivity|]. split; [|split; [congruence|exact Ri]].
          destruct G as (B & _ & Hc). rewrite Eo in B, Hc.
          assert (Ba : built_ops oa /\ built_ops (oc ++ ob)) by (unfold built_ops in *; rewrite adds_app in B; now apply Forall_app in B).
          pose proof (run_consistent _ _ _ _ K (proj1 Ba) Ra) as Ka.
          rewrite (changes_app _ _ _ _ _ Ra) in Hc.
          destruct (version_detects _ _ _ _ Ka (proj2 Ba) Rw) as [D _].
          intros id. assert (Dec : shown ta id = shown (w_table w) id \/ shown ta id <> shown (w_table w) id).
          { destruct (shown ta id) as [x|], (shown (w_table w) id) as [y|]; try (right; discriminate); auto.
            destruct (service_eq_dec x y) as [->|Ne]; [now left|right; intros E; injection E as E; auto]. }
          destruct Dec as [|Ne]; [assumption|].
          exfalso. apply (D ltac:(lia) (ex_intro _ id Ne)). congruence.
        * destruct Hu as [n ->]. cbn [fold_left]. exists os, [], [], (w_table w). rewrite !app_nil_r. cbn [tbl_run].
          split; [reflexivity|]. split; [rewrite Eo, (run_app _ _ _ _ _ Ra); exact Rw|]. do 3 (split; [reflexivity|]). split; [exact Vk|].
          assert (Hn : n < 2 ^ 16).
          { pose proof (step_kept i (view_of tb) (fun v => True) (fun _ _ => True) _ (KTick t (view_of (w_table w)) (view_of (w_table w)) (view_of (w_table w))) _ _ Logic.I S) as Kp.
            rewrite Forall_forall in Kp. specialize (Kp (XQueue t (mk_update n (table_of_services (tbl_visible (w_table w)))))
              ltac:(right; apply in_or_app; right; now left)). cbn [kept] in Kp.
            destruct Kp as [(v & id & _ & E)|[E|[(e & id & m0 & cm & _ & _ & E)|E]]].
            - apply (f_equal cm_id) in E. cbn [mk_update cm_id] in E. rewrite E. apply u16_lt.
            - apply (f_equal cm_type) in E. discriminate E.
            - apply (f_equal cm_type) in E. discriminate E.
            - cbn [mk_update cm_type] in E. destruct E as [E|[E|E]]; discriminate E. }
          exact (update_right _ os n _ G Pw Hn).
      + subst u. cbn [fold_left]. exists oa, oc, ob, ta. rewrite Vk. auto 10.
  Qed.

  Lemma step_ok w os y w' : good_ops (os ++ table_part [y]) -> wok w os -> world_step hash w y = ROk w' -> wok w' (os ++ table_part [y]).
  Proof using K Ht.
    intros G W H. destruct y as [o|t|e]; cbn [table_part flat_map app] in *.
    - destruct W as (C & Hw & oa & oc & ob & ta & Eo & Ra & Rc & Rb & Sh & Ve & Ri). cbn [world_step] in H.
      destruct (tbl_step hash (w_table w) o) as [t'| |] eqn:S; try discriminate. injection H as <-.
      split; [exact C|]. split; [exact Hw|]. cbn [w_conn w_seen w_when w_table w_checked].
      exists oa, oc, (ob ++ [o]), ta. split; [rewrite Eo, !app_assoc; reflexivity|]. split; [exact Ra|]. split; [exact Rc|].
      split; [|auto]. rewrite (run_app _ _ _ _ _ Rb). cbn [tbl_run]. now rewrite S.
    - rewrite app_nil_r in *. exact (tick_ok _ _ _ _ G W H).
    - rewrite app_nil_r in *.
      assert (X : forall k o, no_tick e -> conn_step (w_conn w) e = (k, o) ->
        wok {| w_table := w_table w; w_conn := k; w_seen := w_seen w ++ o; w_checked := w_checked w; w_when := w_when w |} os).
      { intros k o Hn S. destruct W as ((es & C) & Hw & oa & oc & ob & ta & Eo & Ra & Rc & Rb & Sh & Ve & Ri).
        destruct (step_silent _ _ _ _ Hn S) as [Q V].
        split; [exists (es ++ [e]); exact (connection_snoc _ _ _ _ _ _ _ _ C S)|]. cbn [w_conn w_seen w_when w_table w_checked].
        split; [rewrite lcheck_app by exact (silent_ticks _ Q); exact Hw|].
        exists oa, oc, ob, ta. rewrite V, believes_app, (silent_believes _ Q). auto 10. }
      destruct e as [items|t a b d| |sid te]; cbn [world_step] in H; [|injection H as <-; exact W| |];
        (match type of H with (let '(_, _) := ?c in _) = _ => destruct c as [k o] eqn:S end; injection H as <-; exact (X _ _ Logic.I eq_refl)).
  Qed.

  Lemma part_cons y ys : table_part (y :: ys) = table_part [y] ++ table_part ys.
  Proof using. clear. unfold table_part. cbn [flat_map]. now rewrite app_nil_r. Qed.

  Lemma wok_run w os : wok w os -> tbl_run hash tb os = ROk (w_table w).
  Proof using.
    intros (_ & _ & oa & oc & ob & ta & -> & Ra & Rc & Rb & _). rewrite (run_app _ _ _ _ _ Ra), (run_app _ _ _ _ _ Rc). exact Rb.
  Qed.

  Lemma run_ok ys : forall w os w', good_ops (os ++ table_part ys) -> wok w os -> world_run hash w ys = ROk w' -> wok w' (os ++ table_part ys).
  Proof using K Ht.
    induction ys as [|y ys IH]; intros w os w' G W H; cbn [world_run] in H.
    - injection H as <-. cbn [table_part flat_map]. now rewrite app_nil_r.
    - destruct (world_step hash w y) as [w1| |] eqn:S; try discriminate. rewrite part_cons, app_assoc in *.
      assert (Rx : exists t1, tbl_run hash tb (os ++ table_part [y]) = ROk t1).
      { rewrite (run_app _ _ _ _ _ (wok_run _ _ W)). destruct y as [o|t|e]; cbn [table_part flat_map app tbl_run]; eauto.
        cbn [world_step] in S. destruct (tbl_step hash (w_table w) o); try discriminate. eauto. }
      pose proof (good_prefix _ _ G Rx) as G1.
      exact (IH _ _ _ G (step_ok _ _ _ _ G1 W S) H).
  Qed.

  Lemma world_right ys w : good_ops (table_part ys) -> world_run hash (world_new t0 i tb) ys = ROk w ->
    right_about (w_checked w) (believes (w_seen w)) /\ w_when w = last_check t0 (w_seen w).
  Proof using K Ht Wi.
    intros G H. pose proof (run_ok ys _ [] _ G (new_ok _ G) H) as (_ & Hw & oa & oc & ob & ta & _ & _ & _ & _ & Sh & _ & Ri).
    split; [exact (right_same _ _ _ Sh Ri)|exact Hw].
  Qed.
End World.

(** The age of what the server believes, after a tick. *)
Lemma tick_age hash w t w' : running (w_conn w) = true -> registered (w_seen w) = true -> world_step hash w (HTick t) = ROk w' ->
  w_when w' = w_when w /\ w_checked w' = w_checked w /\ (t - w_when w' < 5 * SEC)%Z \/ w_when w' = t /\ w_checked w' = w_table w'.
Proof.
  intros R G H. cbn [world_step] in H. cbv zeta in H. destruct (conn_step _ _) as [k o]. injection H as <-. cbn [w_when w_checked w_table].
  unfold is_check. rewrite R, G. cbn [andb]. destruct (Z.leb_spec (5 * SEC) (t - w_when w)); [right|left]; auto.
Qed.

Lemma server_current hash t0 i tb ys w : consistent tb -> (forall id s, stored tb id = Some s -> plain s) -> wf_identity i ->
  built_ops (table_part ys) -> (forall now s, In (now, s) (adds (table_part ys)) -> plain s) ->
  shown_changes hash tb (table_part ys) < 2 ^ 32 ->
  world_run hash (world_new t0 i tb) ys = ROk w -> right_about (w_checked w) (believes (w_seen w)).
Proof. intros K Ht Wi B Ho Hc H. exact (proj1 (world_right hash t0 i tb K Ht Wi ys w (conj B (conj Ho Hc)) H)). Qed.

Lemma run_snoc hash y w' ys : forall w0 w, world_run hash w0 ys = ROk w -> world_step hash w y = ROk w' -> world_run hash w0 (ys ++ [y]) = ROk w'.
Proof.
  induction ys as [|x ys IH]; intros w0 w; cbn [app world_run].
  - intros Eq S. injection Eq as ->. now rewrite S.
  - destruct (world_step hash w0 x) as [w1| |]; try discriminate. apply IH.
Qed.

Lemma server_fresh hash t0 i tb ys w t w' : consistent tb -> (forall id s, stored tb id = Some s -> plain s) -> wf_identity i ->
  built_ops (table_part ys) -> (forall now s, In (now, s) (adds (table_part ys)) -> plain s) ->
  shown_changes hash tb (table_part ys) < 2 ^ 32 ->
  world_run hash (world_new t0 i tb) ys = ROk w -> running (w_conn w) = true -> registered (w_seen w) = true ->
  (5 * SEC <= t - last_check t0 (w_seen w))%Z -> world_step hash w (HTick t) = ROk w' ->
  w_table w' = w_table w /\ right_about (w_table w') (believes (w_seen w')).
Proof.
  intros K Ht Wi B Ho Hc H R G L S.
  assert (E : w_table w' = w_table w).
  { cbn [world_step] in S. cbv zeta in S. destruct (conn_step _ _). injection S as <-. reflexivity. }
  split; [exact E|].
  pose proof (proj2 (world_right hash t0 i tb K Ht Wi ys w (conj B (conj Ho Hc)) H)) as Hw.
  pose proof (run_snoc _ _ _ _ _ _ H S) as Hx.
  assert (Ep : table_part (ys ++ [HTick t]) = table_part ys) by (unfold table_part; rewrite flat_map_app; apply app_nil_r).
  rewrite <- Ep in B, Ho, Hc. pose proof (server_current _ _ _ _ _ _ K Ht Wi B Ho Hc Hx) as Q.
  destruct (tick_age _ _ _ _ R G S) as [(A1 & _ & A3)|(_ & A2)]; [lia|]. now rewrite <- A2.
Qed.
