(** More proofs of properties of a connection. *)
From Coq Require Import NArith ZArith List Bool Lia ZifyBool ZifyNat ZifyN.
From Verif.Model Require Import Bytes Frame Service Control Alist Session Manager Client.
From Verif.Spec Require Import ControlSpec SessionSpec ManagerSpec ClientSpec.
From Verif.Proofs Require Import BytesFacts ControlProofs AlistFacts ManagerProofs ManagerPropsPf ManagerPropsPf2
  ClientProofs ClientInv ClientRun ClientPropsPf.
Import ListNotations.
Local Open Scope N_scope.

(** ** C28 *)
Lemma running_full t0 i v1 v2 es k h :
  connection t0 i v1 v2 es = (k, h) -> k_result k = None -> full t0 i v1 v2 (k_ctx k) h.
Proof. intros H Hr. apply connection_reached in H. unfold reached in H. now rewrite Hr in H. Qed.

Lemma tick_step t0 i v1 v2 k h t a b d k' o :
  full t0 i v1 v2 (k_ctx k) h -> k_result k = None -> conn_step k (KTick t a b d) = (k', o) ->
  exists p u, o = XTick t a b d :: p ++ u /\ run_ok t0 i v1 (k_ctx k') (h ++ o) /\
    k_result k' = (if ack_timeout t (k_ctx k') then Some (Failed ConnectionError) else None) /\
    (if registered h && (60 * SEC <=? t - last_ping t0 h)%Z then exists n, p = [XQueue t (mk_ping n)] else p = []) /\
    (if registered h && (5 * SEC <=? t - last_check t0 h)%Z && negb (c_version (k_ctx k) =? v_version a)
     then exists n, u = [XQueue t (mk_update n (table_of_services (v_visible b)))]
     else u = []).
Proof.
  intros (R & _ & _) Hr. unfold conn_step. rewrite Hr, (open_not_closed _ (v_open _ _ _ _ _ (proj1 R))).
  destruct (time_event t (k_ctx k) a b d) as [[r c1] o1] eqn:Et. intros [= <- <-].
  destruct (tick_shape _ _ _ _ _ _ _ _ _ _ _ _ R Et) as (R1 & -> & p & u & -> & Hp & Hu).
  exists p, u. cbn [k_ctx k_result]. split; [reflexivity|]. split; [exact R1|].
  split; [destruct (ack_timeout t c1); reflexivity|]. split; [exact Hp|].
  destruct (_ && negb _) in *; apply Hu.
Qed.

Lemma tick_outstanding t0 h t a b d p u (X : bool) (Y : bool) tb :
  (if X then exists n, p = [XQueue t (mk_ping n)] else p = []) ->
  (if Y then exists n, u = [XQueue t (mk_update n tb)] else u = []) ->
  exists new, outstanding (h ++ XTick t a b d :: p ++ u) = outstanding h ++ new /\
    (if X then exists n, new = [(t, n)] else new = []) /\
    last_ping t0 (h ++ XTick t a b d :: p ++ u) = (if X then t else last_ping t0 h) /\
    received (h ++ XTick t a b d :: p ++ u) = received h.
Proof.
  intros Hp Hu.
  replace (h ++ XTick t a b d :: p ++ u) with (((h ++ [XTick t a b d]) ++ p) ++ u) by (now rewrite <- !app_assoc).
  assert (Eu : forall g, outstanding (g ++ u) = outstanding g /\ last_ping t0 (g ++ u) = last_ping t0 g /\ received (g ++ u) = received g).
  { intros g. destruct Y; [destruct Hu as [n ->]|subst u; rewrite app_nil_r; auto].
    rewrite outstanding_snoc, lping_snoc, received_app. cbn. rewrite app_nil_r. auto. }
  destruct (Eu ((h ++ [XTick t a b d]) ++ p)) as (-> & -> & ->). destruct X.
  - destruct Hp as [n ->]. exists [(t, n)]. rewrite !outstanding_snoc, !lping_snoc, !received_app. cbn. rewrite !app_nil_r.
    split; [reflexivity|]. split; [eauto|]. auto.
  - subst p. exists []. rewrite app_nil_r, !outstanding_snoc, !lping_snoc, !received_app. cbn. rewrite !app_nil_r. auto.
Qed.

Definition latest (t : Z) (l : list Z) : Z := fold_left (fun _ x => x) l t.
Lemma latest_snoc t l x : latest t (l ++ [x]) = x.
Proof. unfold latest. now rewrite fold_left_app. Qed.
Lemma asc_snoc t l x : ascending t (l ++ [x]) <-> ascending t l /\ (latest t l <= x)%Z.
Proof.
  revert t. induction l as [|y l IH]; intros t; cbn [app ascending latest fold_left]; [intuition|].
  rewrite IH. unfold latest. intuition.
Qed.
Lemma asc_tl t l : ascending t l -> ascending t (tl l) /\ (latest t (tl l) <= latest t l)%Z.
Proof. destruct l as [|x [|y l]]; cbn; intuition lia. Qed.
Lemma asc_head t x l : ascending t (x :: l) -> Forall (fun y => (x <= y)%Z) l.
Proof.
  intros [_ H]. revert x H. induction l as [|y l IH]; intros x; cbn; [constructor|]. intros [A B].
  constructor; [exact A|]. eapply Forall_impl; [|apply IH, B]. cbn. lia.
Qed.
Lemma times_app h o : history_times (h ++ o) = history_times h ++ history_times o.
Proof. apply flat_map_app. Qed.
Lemma map_tl' {A B} (f : A -> B) l : map f (tl l) = tl (map f l).
Proof. destruct l; reflexivity. Qed.

Lemma outstanding_asc t0 h :
  ascending t0 (history_times h) ->
  ascending t0 (map fst (outstanding h)) /\ (latest t0 (map fst (outstanding h)) <= latest t0 (history_times h))%Z.
Proof.
  induction h as [|x h IH] using rev_ind; [cbn; intuition lia|]. rewrite times_app, outstanding_snoc.
  destruct x as [e m|t a b d|t m|o|c|m]; cbn [history_times flat_map app outstanding_step]; rewrite ?app_nil_r; auto.
  - destruct (read_ack m); auto. intros H. destruct (IH H) as [A B]. rewrite map_tl'. apply asc_tl in A. intuition lia.
  - rewrite asc_snoc. intros [H1 H2]. destruct (IH H1) as [A B]. rewrite latest_snoc. split; [exact A|lia].
  - rewrite asc_snoc. intros [H1 H2]. destruct (IH H1) as [A B]. rewrite latest_snoc.
    destruct (needs_ack m); [|split; [exact A|lia]]. rewrite map_app. cbn [map fst]. rewrite latest_snoc.
    split; [apply asc_snoc; split; [exact A|lia]|lia].
Qed.

Lemma timeout_iff t0 i v1 v2 es k h t a b d k' o :
  connection t0 i v1 v2 es = (k, h) -> k_result k = None -> conn_step k (KTick t a b d) = (k', o) ->
  ascending t0 (history_times (h ++ [XTick t a b d])) ->
  (k_result k' = Some (Failed ConnectionError) /\ exists t1 id, In (t1, id) (outstanding h) /\ (20 * SEC <= t - t1)%Z) \/
  (k_result k' = None /\ forall t1 id, In (t1, id) (outstanding h) -> (t - t1 < 20 * SEC)%Z).
Proof.
  intros H Hr Hs Hasc. pose proof (running_full _ _ _ _ _ _ _ H Hr) as F.
  destruct (tick_step _ _ _ _ _ _ _ _ _ _ _ _ F Hr Hs) as (p & u & -> & (I & _ & _) & Hk & Hp & Hu).
  destruct (tick_outstanding t0 h t a b d p u _ _ _ Hp Hu) as (new & Hn & Hnew & _ & _).
  rewrite times_app in Hasc. cbn [history_times flat_map app] in Hasc. apply asc_snoc in Hasc as [Hasc _].
  destruct (outstanding_asc t0 h Hasc) as [A _].
  rewrite Hk. unfold ack_timeout. rewrite (v_acks _ _ _ _ _ I), Hn. change ACK_TIMEOUT with (20 * SEC)%Z.
  destruct (outstanding h) as [|[t1 id1] rest] eqn:Eo.
  - right. split; [|intros ? ? []]. cbn [app]. destruct (registered h && (60 * SEC <=? t - last_ping t0 h)%Z).
    + destruct Hnew as [n ->]. destruct (Z.leb_spec (20 * SEC) (t - t)); [unfold SEC in *; lia|reflexivity].
    + subst new. reflexivity.
  - cbn [app]. cbn [map fst] in A. destruct (Z.leb_spec (20 * SEC) (t - t1)).
    + left. split; [reflexivity|]. exists t1, id1. split; [now left|exact H0].
    + right. split; [reflexivity|]. intros t2 id2 [E|Hin]; [injection E as <- <-; exact H0|].
      apply asc_head in A. rewrite Forall_forall in A. specialize (A t2). assert (In t2 (map fst rest)) by (apply in_map_iff; exists (t2, id2); auto).
      specialize (A H1). lia.
Qed.

Lemma ping_iff t0 i v1 v2 es k h t a b d k' o :
  connection t0 i v1 v2 es = (k, h) -> k_result k = None -> conn_step k (KTick t a b d) = (k', o) ->
  (registered h = true /\ (60 * SEC <= t - last_ping t0 h)%Z /\ exists n, filter is_ping o = [XQueue t (mk_ping n)]) \/
  ((registered h = false \/ (t - last_ping t0 h < 60 * SEC)%Z) /\ filter is_ping o = []).
Proof.
  intros H Hr Hs. pose proof (running_full _ _ _ _ _ _ _ H Hr) as F.
  destruct (tick_step _ _ _ _ _ _ _ _ _ _ _ _ F Hr Hs) as (p & u & -> & _ & _ & Hp & Hu).
  assert (Eu : filter is_ping u = []) by (destruct (_ && negb _) in Hu; [destruct Hu as [n ->]|subst u]; reflexivity).
  cbn [filter is_ping]. rewrite filter_app, Eu, app_nil_r.
  destruct (registered h); cbn [andb] in Hp; [|right; subst p; auto].
  destruct (Z.leb_spec (60 * SEC) (t - last_ping t0 h)).
  - left. destruct Hp as [n ->]. split; [reflexivity|]. split; [assumption|]. now exists n.
  - right. subst p. auto.
Qed.

(** A silent server. *)
Lemma run_ended k es : k_result k <> None -> conn_run k es = (k, []).
Proof.
  intros H. induction es as [|e es IH]; cbn [conn_run]; [reflexivity|].
  unfold conn_step. destruct (k_result k); [|congruence]. now rewrite IH.
Qed.

Lemma silent_step t0 i v1 v2 k h e k' o :
  full t0 i v1 v2 (k_ctx k) h -> k_result k = None -> no_input e -> conn_step k e = (k', o) ->
  k_result k' <> None \/
  (full t0 i v1 v2 (k_ctx k') (h ++ o) /\ registered (h ++ o) = registered h /\
   ((forall t a b d, e <> KTick t a b d) /\ outstanding (h ++ o) = outstanding h /\ last_ping t0 (h ++ o) = last_ping t0 h)) \/
  (full t0 i v1 v2 (k_ctx k') (h ++ o) /\ registered (h ++ o) = registered h /\
   exists t a b d new, e = KTick t a b d /\ outstanding (h ++ o) = outstanding h ++ new /\
     (if registered h && (60 * SEC <=? t - last_ping t0 h)%Z then exists n, new = [(t, n)] else new = []) /\
     last_ping t0 (h ++ o) = (if registered h && (60 * SEC <=? t - last_ping t0 h)%Z then t else last_ping t0 h) /\
     ack_timeout t (k_ctx k') = false).
Proof.
  intros F Hr Hn Hs. destruct (k_result k') eqn:Er'; [left; discriminate|right].
  assert (Hre : full t0 i v1 v2 (k_ctx k') (h ++ o)).
  { assert (X : reached t0 i v1 v2 k h) by (unfold reached; now rewrite Hr).
    pose proof (step_reached _ _ _ _ _ _ _ _ _ X Hs) as Y. unfold reached in Y. now rewrite Er' in Y. }
  destruct e as [items|t a b d| |sid te].
  - left. split; [exact Hre|]. destruct items; [|contradiction Hn]. unfold conn_step in Hs. rewrite Hr in Hs.
    cbn [client_poll client_loop] in Hs. destruct (ctx_poll (k_ctx k)) as [[p1 c1] o1] eqn:Ep.
    destruct (poll_quiet _ _ _ _ Ep) as [ob ->].
    destruct (full_poll _ _ _ _ _ _ _ _ _ F Ep) as [(-> & F1 & _)|(m1 & -> & F1)]; injection Hs as <- <-.
    + split; [apply registered_ext, received_mgr|]. rewrite outstanding_mgr, lping_mgr. split; [discriminate|auto].
    + rewrite app_assoc, outstanding_snoc, lping_snoc. cbn [outstanding_step]. rewrite outstanding_mgr, lping_mgr.
      split; [apply registered_ext; rewrite received_app, received_mgr; apply app_nil_r|]. split; [discriminate|auto].
  - right. split; [exact Hre|]. destruct (tick_step _ _ _ _ _ _ _ _ _ _ _ _ F Hr Hs) as (p & u & -> & _ & Hk & Hp & Hu).
    destruct (tick_outstanding t0 h t a b d p u _ _ _ Hp Hu) as (new & E1 & E2 & E3 & E4).
    split; [now apply registered_ext|]. exists t, a, b, d, new. split; [reflexivity|]. split; [exact E1|]. split; [exact E2|].
    split; [exact E3|]. rewrite Hk in Er'. destruct (ack_timeout t (k_ctx k')); [discriminate|reflexivity].
  - unfold conn_step in Hs. rewrite Hr in Hs. injection Hs as <- <-. discriminate.
  - left. split; [exact Hre|]. unfold conn_step in Hs. rewrite Hr in Hs. unfold lift_mgr in Hs.
    destruct (mgr_step (c_mgr (k_ctx k)) (MTransport sid te)) as [g ob] eqn:Eg. injection Hs as <- <-.
    split; [apply registered_ext, received_mgr|]. rewrite outstanding_mgr, lping_mgr. split; [discriminate|auto].
Qed.

Lemma silent_head t0 i v1 v2 s es : forall k h t1 id rest T,
  full t0 i v1 v2 (k_ctx k) h -> k_result k = None -> Forall no_input es ->
  outstanding h = (t1, id) :: rest -> (t1 <= s)%Z -> In T (ticks es) -> (s + 20 * SEC <= T)%Z ->
  k_result (fst (conn_run k es)) <> None.
Proof.
  induction es as [|e es IH]; intros k h t1 id rest T F Hr Hn Ho Hs Hin HT; [destruct Hin|].
  cbn [conn_run]. destruct (conn_step k e) as [k1 o1] eqn:E1.
  apply Forall_cons_iff in Hn as [Hn1 Hn2]. destruct (conn_run k1 es) as [k2 o2] eqn:E2. cbn [fst].
  assert (Hk2 : k2 = fst (conn_run k1 es)) by now rewrite E2.
  destruct (silent_step _ _ _ _ _ _ _ _ _ F Hr Hn1 E1) as [X|[(F1 & R1 & Hnt & Ho1 & _)|(F1 & R1 & t & a & b & d & new & -> & Ho1 & _ & _ & Ht)]].
  - rewrite (run_ended k1 es X) in E2. injection E2 as <- _. exact X.
  - destruct (k_result k1) eqn:Er1; [rewrite (run_ended k1 es) in E2 by congruence; injection E2 as <- _; congruence|].
    rewrite Hk2. apply (IH k1 _ t1 id rest T F1 Er1 Hn2); [congruence|exact Hs| |exact HT].
    destruct e as [items|t a b d| |sid te]; try exact Hin. now specialize (Hnt t a b d).
  - destruct (k_result k1) eqn:Er1; [rewrite (run_ended k1 es) in E2 by congruence; injection E2 as <- _; congruence|].
    rewrite Hk2. rewrite Ho in Ho1. cbn [app] in Ho1.
    destruct Hin as [Hin|Hin].
    + exfalso. subst t. unfold ack_timeout in Ht. rewrite (v_acks _ _ _ _ _ (proj1 (proj1 F1))), Ho1 in Ht.
      change ACK_TIMEOUT with (20 * SEC)%Z in Ht. lia.
    + eapply (IH k1 _ t1 id _ T F1 Er1 Hn2); eauto.
Qed.

Lemma silent_server t0 i v1 v2 D es : forall k h tl T,
  full t0 i v1 v2 (k_ctx k) h -> k_result k = None -> registered h = true -> Forall no_input es ->
  Forall (fun x => (fst x <= tl)%Z) (outstanding h) -> paced D tl (ticks es) ->
  In T (ticks es) -> (Z.max tl (last_ping t0 h + 60 * SEC) + D + 20 * SEC <= T)%Z ->
  k_result (fst (conn_run k es)) <> None.
Proof.
  induction es as [|e es IH]; intros k h tl T F Hr Hreg Hn Ho Hp Hin HT; [destruct Hin|].
  cbn [conn_run]. destruct (conn_step k e) as [k1 o1] eqn:E1.
  apply Forall_cons_iff in Hn as [Hn1 Hn2]. destruct (conn_run k1 es) as [k2 o2] eqn:E2. cbn [fst].
  assert (Hk2 : k2 = fst (conn_run k1 es)) by now rewrite E2.
  destruct (silent_step _ _ _ _ _ _ _ _ _ F Hr Hn1 E1) as [X|[(F1 & R1 & Hnt & Ho1 & Hl1)|(F1 & R1 & t & a & b & d & new & -> & Ho1 & Hnew & Hl1 & Ht)]].
  - rewrite (run_ended k1 es X) in E2. injection E2 as <- _. exact X.
  - destruct (k_result k1) eqn:Er1; [rewrite (run_ended k1 es) in E2 by congruence; injection E2 as <- _; congruence|].
    rewrite Hk2. assert (Et : ticks (e :: es) = ticks es).
    { destruct e as [items|t a b d| |sid te]; try reflexivity. now specialize (Hnt t a b d). }
    rewrite Et in *. apply (IH k1 _ tl T F1 Er1); rewrite ?Hl1; auto; congruence.
  - destruct (k_result k1) eqn:Er1; [rewrite (run_ended k1 es) in E2 by congruence; injection E2 as <- _; congruence|].
    rewrite Hk2. cbn [ticks flat_map app paced] in Hp, Hin. fold (ticks es) in Hp, Hin. destruct Hp as [Hp1 Hp2].
    rewrite Hreg in *. cbn [andb] in *. destruct (Z.leb_spec (60 * SEC) (t - last_ping t0 h)) as [H60|H60].
    + destruct Hnew as [n ->]. destruct Hin as [->|Hin]; [unfold SEC in *; lia|].
      destruct (outstanding h) as [|[t1 id1] rest] eqn:Eo; cbn [app] in Ho1.
      * apply (silent_head _ _ _ _ t es k1 _ t n [] T F1 Er1 Hn2 Ho1); auto; try lia.
      * apply Forall_inv in Ho. cbn [fst] in Ho. apply (silent_head _ _ _ _ t es k1 _ t1 id1 _ T F1 Er1 Hn2 Ho1); auto; try lia.
    + subst new. rewrite app_nil_r in Ho1. destruct Hin as [->|Hin]; [unfold SEC in *; lia|].
      apply (IH k1 _ t T F1 Er1); [congruence|exact Hn2| |exact Hp2|exact Hin|].
      * rewrite Ho1. eapply Forall_impl; [|exact Ho]. cbn. lia.
      * rewrite Hl1. lia.
Qed.

Lemma silent_detected t0 i v1 v2 es k h tl D es' T :
  connection t0 i v1 v2 es = (k, h) -> k_result k = None -> registered h = true ->
  Forall (fun x => (x <= tl)%Z) (history_times h) -> Forall no_input es' -> paced D tl (ticks es') -> In T (ticks es') ->
  (Z.max tl (last_ping t0 h + 60 * SEC) + D + 20 * SEC <= T)%Z ->
  k_result (fst (conn_run k es')) <> None.
Proof.
  intros H Hr Hreg Hh Hn Hp Hin HT. eapply silent_server; eauto using running_full.
  clear -Hh. induction h as [|x h IH] using rev_ind; [constructor|]. rewrite outstanding_snoc.
  rewrite times_app in Hh. apply Forall_app in Hh as [H1 H2]. specialize (IH H1). destruct x; cbn in *; auto.
  - destruct (read_ack m); auto. destruct (outstanding h); [constructor|]. now apply Forall_inv_tail in IH.
  - destruct (needs_ack m); auto. apply Forall_app. split; [exact IH|]. constructor; [|constructor]. cbn. now apply Forall_inv in H2.
Qed.

(** ** C29 *)
Lemma update_iff t0 i v es k h t a k' o :
  connection t0 i v v es = (k, h) -> k_result k = None -> Forall atomic_tick h ->
  conn_step k (KTick t a a a) = (k', o) ->
  (registered h = true /\ (5 * SEC <= t - last_check t0 h)%Z /\ v_version a <> v_version (announced v h) /\
   exists n, filter is_update o = [XQueue t (mk_update n (table_of_services (v_visible a)))]) \/
  ((registered h = false \/ (t - last_check t0 h < 5 * SEC)%Z \/ v_version a = v_version (announced v h)) /\
   filter is_update o = []).
Proof.
  intros H Hr Hat Hs. pose proof (running_full _ _ _ _ _ _ _ H Hr) as F.
  destruct (tick_step _ _ _ _ _ _ _ _ _ _ _ _ F Hr Hs) as (p & u & -> & _ & _ & Hp & Hu).
  assert (Ep : filter is_update p = []) by (destruct (_ && _) in Hp; [destruct Hp as [n ->]|subst p]; reflexivity).
  cbn [filter is_update]. rewrite filter_app, Ep. cbn [app].
  destruct F as (_ & _ & V). rewrite (V eq_refl Hat) in Hu.
  destruct (registered h); cbn [andb] in Hu; [|right; subst u; auto].
  destruct (Z.leb_spec (5 * SEC) (t - last_check t0 h)); cbn [andb] in Hu; [|right; subst u; auto].
  destruct (N.eqb_spec (v_version (announced v h)) (v_version a)); cbn [negb] in Hu; [right; subst u; auto|].
  left. destruct Hu as [n' ->]. split; [reflexivity|]. split; [assumption|]. split; [congruence|]. now exists n'.
Qed.

Lemma no_update_mgr ob : existsb is_update (map XMgr ob) = false.
Proof. induction ob; [reflexivity|assumption]. Qed.
Lemma handled_version t e c m r c' o :
  handled t e c m r c' o -> c_version c' = c_version c /\ existsb is_update o = false.
Proof.
  intros [Ha Hb|id code Ha Hb|id code t1 x rest Ha Hb Hc|id code t1 rest Ha Hb Hc|id code t1 rest r' c1 Ha Hb Hc Hd
                   |me g ob Ha Hb Hc Hd He|q a c1 Ha Hb Hc Hd|id target Ha Hb Hc Hd He|cmd id ty Ha Hb Hc Hd He Hf]; try (split; reflexivity).
  - rewrite handshake_cases in Hd. destruct (code =? 0); injection Hd as <- <-; [|split; reflexivity].
    destruct (e_diagnostic e); split; reflexivity.
  - split; [reflexivity|]. apply no_update_mgr.
  - rewrite send_control_version. unfold answer_to in Hd. destruct q as [id|id|id].
    + injection Hd as <- <-. split; reflexivity.
    + unfold c_next_id in Hd. cbn [next_id] in Hd. injection Hd as <- <-. split; reflexivity.
    + unfold c_next_id in Hd. cbn [next_id] in Hd. injection Hd as <- <-. split; reflexivity.
  - unfold redirected. csimp. destruct (c_task c); split; reflexivity.
Qed.

Lemma feed_version c it r c' o : feed_item c it = (r, c', o) -> c_version c' = c_version c /\ existsb is_update o = false.
Proof.
  destruct it as [t e m| |]; cbn [feed_item]; intros H.
  - destruct (is_closed c) eqn:Ec.
    + unfold process_message in H. rewrite Ec in H. injection H as <- <- <-. split; reflexivity.
    + apply process_handled in H as (o' & -> & Hd); [|exact Ec]. apply handled_version in Hd. exact Hd.
  - injection H as <- <- <-. split; reflexivity.
  - injection H as <- <- <-. split; reflexivity.
Qed.
Lemma poll_version c p c' o : ctx_poll c = (p, c', o) -> c_version c' = c_version c /\ existsb is_update o = false.
Proof.
  intros H. destruct (poll_quiet _ _ _ _ H) as [ob ->]. split; [|apply no_update_mgr]. unfold ctx_poll in H.
  destruct (is_closed c); [injection H as <- <- _; reflexivity|]. destruct (c_messages c).
  - destruct (mgr_poll (c_mgr c)) as [g ob']. destruct (polled_msg ob'); injection H as <- <- _; reflexivity.
  - injection H as <- <- _. reflexivity.
Qed.
Lemma loop_version items : forall c p c' o,
  client_loop c items = (p, c', o) -> c_version c' = c_version c /\ existsb is_update o = false.
Proof.
  induction items as [|it items IH]; intros c p c' o; cbn [client_loop];
    destruct (ctx_poll c) as [[p1 c1] o1] eqn:Ep; destruct (poll_version _ _ _ _ Ep) as [V1 U1]; destruct p1; try (intros [= <- <- <-]; auto).
  destruct (feed_item c1 it) as [[r c2] o2] eqn:Ef. destruct (feed_version _ _ _ _ _ Ef) as [V2 U2]. destruct r.
  - intros [= <- <- <-]. rewrite existsb_app, U1, U2. split; [congruence|reflexivity].
  - destruct (client_loop c2 items) as [[p3 c3] o3] eqn:El. destruct (IH _ _ _ _ El) as [V3 U3].
    intros [= <- <- <-]. rewrite !existsb_app, U1, U2, U3. split; [congruence|reflexivity].
Qed.

Lemma stale_step v k e k' o :
  c_version (k_ctx k) = v_version v -> only_sees v e -> conn_step k e = (k', o) ->
  c_version (k_ctx k') = v_version v /\ existsb is_update o = false.
Proof.
  intros Hv He. unfold conn_step. destruct (k_result k); [intros [= <- <-]; auto|].
  destruct e as [items|t a b d| |sid te].
  - destruct items as [|it items]; cbn [client_poll].
    + destruct (client_loop (k_ctx k) []) as [[p c1] o1] eqn:El. destruct (loop_version _ _ _ _ _ El) as [V U].
      destruct p; intros [= <- <-]; cbn [k_ctx]; rewrite ?existsb_app, ?U; split; try congruence; reflexivity.
    + destruct (feed_item (k_ctx k) it) as [[r c1] o1] eqn:Ef. destruct (feed_version _ _ _ _ _ Ef) as [V1 U1]. destruct r.
      * intros [= <- <-]. cbn [k_ctx]. split; [congruence|exact U1].
      * destruct (client_loop c1 items) as [[p c2] o2] eqn:El. destruct (loop_version _ _ _ _ _ El) as [V U].
        destruct p; intros [= <- <-]; cbn [k_ctx]; rewrite ?existsb_app, ?U1, ?U; split; try congruence; reflexivity.
  - destruct (is_closed (k_ctx k)); [intros [= <- <-]; auto|]. destruct He as (-> & -> & ->).
    assert (X : forall c, c_version c = v_version v -> check_for_updates t c v v v = (set_last_check c t, [])).
    { intros c Hc. unfold check_for_updates. rewrite Hc, N.eqb_refl. reflexivity. }
    assert (Y : forall r c1 o1, time_event t (k_ctx k) v v v = (r, c1, o1) -> c_version c1 = v_version v /\ existsb is_update o1 = false).
    { unfold time_event. intros r c1 o1. destruct (c_established (k_ctx k)); [|intros [= <- <- <-]; auto].
      destruct (_ <=? _)%Z.
      - assert (Hping : c_version (fst (send_ping t (k_ctx k))) = v_version v /\ existsb is_update (snd (send_ping t (k_ctx k))) = false).
        { unfold send_ping. unfold c_next_id. cbn [next_id]. unfold send_unconfirmed. rewrite send_control_obs. cbn [fst snd].
          csimp. rewrite send_control_version. csimp. auto. }
        destruct (send_ping t (k_ctx k)) as [c2 o2]. cbn [fst snd] in Hping. destruct Hping as [P1 P2].
        destruct (_ <=? _)%Z; [rewrite (X c2 P1)|]; intros [= <- <- <-]; rewrite app_nil_r; csimp; auto.
      - destruct (_ <=? _)%Z; [rewrite (X _ Hv)|]; intros [= <- <- <-]; csimp; auto. }
    destruct (time_event t (k_ctx k) v v v) as [[r c1] o1]. intros [= <- <-]. cbn [k_ctx existsb is_update orb]. now apply (Y r).
  - intros [= <- <-]. auto.
  - unfold lift_mgr. destruct (mgr_step _ _) as [g ob]. intros [= <- <-]. cbn [k_ctx]. csimp. split; [exact Hv|apply no_update_mgr].
Qed.
Lemma stale_run v es : forall k, c_version (k_ctx k) = v_version v -> Forall (only_sees v) es ->
  existsb is_update (snd (conn_run k es)) = false.
Proof.
  induction es as [|e es IH]; intros k Hv He; [reflexivity|]. cbn [conn_run].
  apply Forall_cons_iff in He as [He1 He2]. destruct (conn_step k e) as [k1 o1] eqn:E1.
  destruct (stale_step _ _ _ _ _ Hv He1 E1) as [V U]. specialize (IH k1 V He2).
  destruct (conn_run k1 es) as [k2 o2]. cbn [snd] in *. now rewrite existsb_app, U, IH.
Qed.

(** A concrete race. *)
Definition race_id : identity := {| id_uuid := repeat 0 16; id_key := repeat 0 16; id_mac := 1; id_info := []; id_gateway := true |}.
Definition no_get : N -> option service := fun _ => None.
Definition view0 : view := {| v_visible := []; v_version := 0; v_get := no_get |}.
Definition tcp1 (n : N) : service := svc_tcp 1 {| sa_ip := V4 n; sa_port := 80 |}.
Definition viewA : view := {| v_visible := [(5, tcp1 9)]; v_version := 1; v_get := no_get |}.
Definition viewB : view := {| v_visible := [(5, tcp1 9); (6, tcp1 10)]; v_version := 2; v_get := no_get |}.
Definition env0 (v : view) : env :=
  {| e_table := v; e_scanning := false; e_diagnostic := false; e_hosts := []; e_services := []; e_get_id := fun _ => None |}.
Definition ack_msg (id code : N) : amsg :=
  {| m_service := 0; m_session := 0; m_payload := be16 id ++ [0; 0] ++ be32 code |}.
Definition race_events : list kev :=
  [KPoll []; KPoll [SMsg 1 (env0 view0) (ack_msg 0 0)]; KTick (6 * SEC) viewA viewA viewB].

Lemma race_refuted :
  exists (i : identity) (v A B : view) (es : list kev) (k : conn) (h : list cobs) (n : N),
    connection 0 i v v es = (k, h) /\ k_result k = None /\ registered h = true /\
    filter is_update h = [XQueue (6 * SEC) (mk_update n (table_of_services (v_visible A)))] /\
    table_of_services (v_visible A) <> table_of_services (v_visible B) /\ v_version A <> v_version B /\
    forall es', Forall (only_sees B) es' -> existsb is_update (snd (conn_run k es')) = false.
Proof.
  destruct (connection 0 race_id view0 view0 race_events) as [k h] eqn:E.
  exists race_id, view0, viewA, viewB, race_events, k, h, 1. split; [exact E|].
  assert (X : k_result k = None /\ registered h = true /\
    filter is_update h = [XQueue (6 * SEC) (mk_update 1 (table_of_services (v_visible viewA)))] /\ c_version (k_ctx k) = 2).
  { assert (Y : (let '(k, h) := connection 0 race_id view0 view0 race_events in
      (k_result k, registered h, filter is_update h, c_version (k_ctx k))) =
      (None, true, [XQueue (6 * SEC) (mk_update 1 (table_of_services (v_visible viewA)))], 2)) by (vm_compute; reflexivity).
    rewrite E in Y. clear E. generalize dependent k. intros k Y. assert (Z := f_equal (fun x => fst (fst (fst x))) Y).
    assert (Z1 := f_equal (fun x => snd (fst (fst x))) Y). assert (Z2 := f_equal (fun x => snd (fst x)) Y).
    assert (Z3 := f_equal snd Y). cbn [fst snd] in *. auto. }
  destruct X as (X1 & X2 & X3 & X4). split; [exact X1|]. split; [exact X2|]. split; [exact X3|].
  split; [vm_compute; discriminate|]. split; [vm_compute; discriminate|]. intros es' Hes. apply (stale_run viewB); [exact X4|exact Hes].
Qed.

(** ** C31 *)
Lemma redirect_final t0 i v1 v2 es k h h1 e m h2 id target :
  connection t0 i v1 v2 es = (k, h) -> h = h1 ++ XRecv e m :: h2 -> registered h1 = true ->
  server_says m {| cm_id := id; cm_type := 3; cm_body := BRedirect target |} ->
  h2 = [] /\ k_result k = Some (Redirected target).
Proof.
  intros H Eh Hreg [Hs Hm]. apply accept_complete in Hm.
  assert (Hna : read_ack m = None).
  { destruct (read_ack m) as [[x y]|] eqn:E; [|reflexivity]. apply read_ack_decode in E as [_ E]. congruence. }
  assert (Hnr : read_request m = None).
  { destruct (read_request m) as [q|] eqn:E; [|reflexivity]. apply read_request_decode in E as [_ E]. destruct q; congruence. }
  destruct (recv_cases _ _ _ _ _ _ _ _ _ _ _ H Eh) as (t & c & (I & _ & _) & [(c' & o & h3 & Hd & Hc & _)|[(kd & c' & Hd & _ & -> & ->)|(tg & c' & Hd & Hc & -> & ->)]]);
    pose proof (v_est _ _ _ _ _ I) as Hest.
  - exfalso. inversion Hd as [| | |id' code t1 rest Ha Hb Hf|id' code t1 rest r' c1 Ha Hb Hf Hg
                   |me g ob Ha Hb Hf Hg He|q a c1 Ha Hb Hf Hg|id' tg Ha Hb Hf Hg He|cmd id' ty Ha Hb Hf Hg He Hh]; subst; try congruence.
    + destruct Hg as [[Hg _]|(_ & cm & Hg & Hg2)]; [congruence|]. rewrite Hm in Hg. injection Hg as <-. exact Hg2.
    + unfold redirected, is_closed in Hc. csimp. destruct (c_task c); csimp; rewrite orb_true_r in Hc; discriminate.
  - exfalso. destruct (handled_some _ _ _ _ _ _ _ _ _ _ I Hd) as [[-> [[_ [X|[_ X]]]|(x & y & X & _)]]|(X & _)]; congruence.
  - split; [reflexivity|]. destruct (redirect_inv2 _ _ _ _ _ _ _ _ _ _ I Hd Hc) as [(_ & _ & x & X)|(X & _)]; congruence.
Qed.

Lemma redirect_origin t0 i v1 v2 es k h target :
  connection t0 i v1 v2 es = (k, h) -> k_result k = Some (Redirected target) -> bytes_received h ->
  exists h1 e m, h = h1 ++ [XRecv e m] /\
    ((registered h1 = true /\ exists id, server_says m {| cm_id := id; cm_type := 3; cm_body := BRedirect target |}) \/
     (received h1 = [] /\ read_ack m = Some (REGISTER_ID, 0) /\ e_diagnostic e = true /\ target = [])).
Proof.
  intros H Hr Hb. apply connection_reached in H. unfold reached in H. rewrite Hr in H.
  destruct H as (c & h0 & o & ((I & _ & _) & _ & _) & Hc & ->).
  inversion Hc as [|t e m c' tg Hd Ht| |]; subst. exists h0, e, m. split; [reflexivity|].
  destruct (redirect_inv2 _ _ _ _ _ _ _ _ _ _ I Hd Ht) as [(R & Hs & id & X)|(R & X)].
  - left. split; [exact R|]. exists id. split; [exact Hs|]. apply accept_sound; [|exact X].
    apply (Hb e). apply in_or_app. right. now left.
  - right. split; [|exact X]. apply first_ok_none; [exact (v_recv _ _ _ _ _ I)|exact R].
Qed.

Lemma after_end k es : k_result k <> None -> conn_run k es = (k, []).
Proof. apply run_ended. Qed.

(** ** C32 *)
Lemma answers_match t0 i v1 v2 es k h :
  connection t0 i v1 v2 es = (k, h) -> Forall2 answer (asked h) (answers h).
Proof.
  intros H. apply connection_reached in H. unfold reached in H. destruct (k_result k) as [r|].
  - destruct H as (c & h0 & o & (R & _ & _) & Hc & ->). destruct R as (I & L & A).
    assert (X : asked (h0 ++ o) = asked h0 /\ answers (h0 ++ o) = answers h0); [|destruct X as [-> ->]; exact A].
    inversion Hc as [t e m kd c' Hd Hk|t e m c' tg Hd Ht|kd Hk|t a b d c' o' Ht]; subst.
    + rewrite asked_snoc, answers_app. cbn [answers produced flat_map filter app]. split; [|apply app_nil_r].
      destruct (read_request m) as [q|] eqn:Eq; [|apply app_nil_r]. destruct (registered h0) eqn:R; [|apply app_nil_r]. exfalso.
      pose proof (read_request_no_ack _ _ Eq) as Hna. apply read_request_decode in Eq as [_ Eq].
      destruct (handled_some _ _ _ _ _ _ _ _ _ _ I Hd) as [[-> [[_ [X|[_ X]]]|(x & y & X & _)]]|(X & _)]; congruence.
    + rewrite asked_snoc, answers_app. split; [|apply app_nil_r].
      destruct (read_request m) as [q|] eqn:Eq; [|apply app_nil_r]. destruct (registered h0) eqn:R; [|apply app_nil_r]. exfalso.
      apply read_request_decode in Eq as [_ Eq].
      destruct (redirect_inv2 _ _ _ _ _ _ _ _ _ _ I Hd Ht) as [(_ & _ & x & X)|(X & _)]; [destruct q; congruence|congruence].
    + rewrite app_nil_r. auto.
    + destruct (tick_recv _ _ _ _ _ _ _ _ _ _ _ _ (conj I (conj L A)) Ht) as (X1 & _ & X2 & _). split.
      * apply asked_app. cbn [existsb is_recv orb]. destruct (existsb is_recv o') eqn:E; [|reflexivity].
        apply existsb_exists in E as (x & Hx & E). destruct x; try discriminate. exfalso.
        apply in_split in Hx as (a1 & a2 & ->). rewrite received_app in X1. cbn in X1. apply app_eq_nil in X1 as [_ X1]. discriminate.
      * rewrite answers_app. replace (answers (XTick t a b d :: o')) with (answers o') by reflexivity. rewrite X2. apply app_nil_r.
  - destruct H as ((_ & _ & A) & _). exact A.
Qed.

Lemma queue_order t0 i v1 v2 es k h : connection t0 i v1 v2 es = (k, h) -> waiting h <> None.
Proof.
  intros H. apply connection_reached in H. unfold reached in H. destruct (k_result k) as [r|].
  - destruct H as (c & h0 & o & (R & _ & _) & Hc & ->). destruct R as (I & L & A). pose proof (v_wait _ _ _ _ _ I) as W.
    inversion Hc as [t e m kd c' Hd Hk|t e m c' tg Hd Ht|kd Hk|t a b d c' o' Ht]; subst.
    + now rewrite waiting_snoc, W.
    + now rewrite waiting_snoc, W.
    + rewrite app_nil_r, W. discriminate.
    + destruct (tick_shape _ _ _ _ _ _ _ _ _ _ _ _ (conj I (conj L A)) Ht) as ((I' & _ & _) & _).
      rewrite (v_wait _ _ _ _ _ I'). discriminate.
  - destruct H as ((I & _ & _) & _). rewrite (v_wait _ _ _ _ _ I). discriminate.
Qed.

Lemma waiting_sent t0 i v1 v2 es k h q :
  connection t0 i v1 v2 es = (k, h) -> k_result k = None -> waiting h = Some q ->
  exists k', conn_run k (repeat (KPoll []) (length q)) = (k', map XSent q) /\ k_result k' = None.
Proof.
  intros H Hr Hq. pose proof (running_full _ _ _ _ _ _ _ H Hr) as F. destruct F as ((I & _ & _) & _).
  rewrite (v_wait _ _ _ _ _ I) in Hq. injection Hq as Hq. pose proof (v_open _ _ _ _ _ I) as Ho. clear -Hr Hq Ho.
  revert k Hr Hq Ho. induction q as [|m q IH]; intros k Hr Hq Ho; cbn [length repeat conn_run map].
  - exists k. auto.
  - unfold conn_step. rewrite Hr. cbn [client_poll client_loop]. unfold ctx_poll. rewrite (open_not_closed _ Ho), Hq.
    destruct (IH {| k_ctx := set_ctask (set_messages (k_ctx k) q) (c_task (k_ctx k)) true; k_result := None |}) as (k' & E & R); auto.
    rewrite E. exists k'. auto.
Qed.

(** ** Commands and connections to services *)
Lemma ended_calm c o r : cause c o r -> forall x, In x o -> match x with XMgr _ | XCmd _ => False | _ => True end.
Proof.
  intros [t e m kd c' Hd Hk|t e m c' tg Hd Ht|kd Hk|t a b d c' o' Ht] x Hx.
  - destruct Hx as [<-|[]]. exact Logic.I.
  - destruct Hx as [<-|[]]. exact Logic.I.
  - destruct Hx.
  - destruct Hx as [<-|Hx]; [exact Logic.I|].
    assert (Y : forall c0 r c1 o1, time_event t c0 a b d = (r, c1, o1) -> forall y, In y o1 -> exists m, y = XQueue t m).
    { clear. intros c0 r c1 o1. unfold time_event, check_for_updates, send_ping, send_update, c_next_id. cbn [next_id].
      unfold send_unconfirmed, send_control. intros H y Hy.
      repeat match type of H with context [if ?b then _ else _] => destruct b end; injection H as <- <- <-; cbn in Hy;
        intuition (subst; eauto). }
    destruct (Y _ _ _ _ Ht x Hx) as [m ->]. exact Logic.I.
Qed.

Lemma explained_all t0 i v1 v2 es k h h1 x h2 :
  connection t0 i v1 v2 es = (k, h) -> h = h1 ++ x :: h2 ->
  match x with XMgr _ | XCmd _ => True | _ => False end -> exists h2', why t0 i v1 h1 x h2'.
Proof.
  intros H Eh Hx. apply connection_reached in H. unfold reached in H. destruct (k_result k) as [r|].
  - destruct H as (c & h0 & o & (_ & X & _) & Hc & E). rewrite Eh in E. symmetry in E. apply app_split in E as [(h2' & E1 & _)|(o1 & E & ->)].
    + exists h2'. now apply X.
    + exfalso. pose proof (ended_calm _ _ _ Hc x) as Y. rewrite E in Y. specialize (Y ltac:(apply in_or_app; right; now left)).
      destruct x; contradiction.
  - destruct H as (_ & X & _). exists h2. now apply X.
Qed.

Lemma code_of_type code mt : message_type code = mt -> mt = RESET_SVC_TABLE \/ mt = SCAN_NETWORK \/ mt = CONNECT ->
  code = match mt with RESET_SVC_TABLE => 6 | SCAN_NETWORK => 7 | _ => 13 end.
Proof.
  intros H Hm.
  destruct (message_type_cases code) as [[V E]|[[V E]|[[V E]|[[V E]|[[V E]|[[V E]|[[V E]|[[V E]|[[V E]|[[V E]|[[V E]|[[V E]|[[V E]|[[V E]|[V E]]]]]]]]]]]]]]];
    rewrite E in H; subst mt; try exact V; destruct Hm as [Hm|[Hm|Hm]]; discriminate.
Qed.

Lemma command_origin t0 i v1 v2 es k h h1 cmd h2 :
  connection t0 i v1 v2 es = (k, h) -> h = h1 ++ XCmd cmd :: h2 -> bytes_received h ->
  exists h0 e m id, h1 = h0 ++ [XRecv e m] /\ registered h0 = true /\
    server_says m {| cm_id := id; cm_type := command_code cmd; cm_body := BEmpty |}.
Proof.
  intros H Eh Hb. destruct (explained_all _ _ _ _ _ _ _ _ _ _ H Eh Logic.I) as [h2' Hw]. cbn [why] in Hw.
  destruct Hw as (h0 & e & m & c & id & ty & -> & _ & R & Hs & Hm & Ht). exists h0, e, m, id. split; [reflexivity|]. split; [exact R|].
  split; [exact Hs|]. apply accept_sound.
  - apply (Hb e). rewrite Eh. apply in_or_app. left. apply in_or_app. right. now left.
  - rewrite Hm. f_equal. f_equal. apply code_of_type in Ht; [|destruct cmd; auto]. destruct cmd; exact Ht.
Qed.

Lemma command_given t0 i v1 v2 es k h h1 e m h2 id cmd :
  connection t0 i v1 v2 es = (k, h) -> h = h1 ++ XRecv e m :: h2 -> registered h1 = true ->
  server_says m {| cm_id := id; cm_type := command_code cmd; cm_body := BEmpty |} ->
  exists h3, h2 = XCmd cmd :: h3.
Proof.
  intros H Eh Hreg [Hs Hm]. apply accept_complete in Hm.
  assert (Hna : read_ack m = None).
  { destruct (read_ack m) as [[x y]|] eqn:E; [|reflexivity]. apply read_ack_decode in E as [_ E]. congruence. }
  assert (Hnr : read_request m = None).
  { destruct (read_request m) as [q|] eqn:E; [|reflexivity]. apply read_request_decode in E as [_ E]. rewrite Hm in E. destruct q, cmd; discriminate. }
  destruct (recv_cases _ _ _ _ _ _ _ _ _ _ _ H Eh) as (t & c & (I & _ & _) & [(c' & o & h3 & Hd & Hc & ->)|[(kd & c' & Hd & _ & -> & _)|(tg & c' & Hd & Hc & -> & _)]]);
    pose proof (v_est _ _ _ _ _ I) as Hest.
  - inversion Hd as [| | |id' code t1 rest Ha Hb Hf|id' code t1 rest r' c1 Ha Hb Hf Hg
                   |me g ob Ha Hb Hf Hg He|q a c1 Ha Hb Hf Hg|id' tg Ha Hb Hf Hg He|cmd' id' ty Ha Hb Hf Hg He Hh]; subst; try congruence.
    + exfalso. destruct Hg as [[Hg _]|(_ & cm & Hg & Hg2)]; [congruence|]. rewrite Hm in Hg. injection Hg as <-. destruct cmd; exact Hg2.
    + rewrite Hm in He. injection He as <- <-. destruct cmd, cmd'; try discriminate Hh; now exists h3.
  - exfalso. destruct (handled_some _ _ _ _ _ _ _ _ _ _ I Hd) as [[-> [[_ [X|[_ X]]]|(x & y & X & _)]]|(X & _)]; congruence.
  - exfalso. destruct (redirect_inv2 _ _ _ _ _ _ _ _ _ _ I Hd Hc) as [(_ & _ & x & X)|(X & _)]; congruence.
Qed.

Lemma step_gateway g e : Manager.g_gateway (fst (mgr_step g e)) = Manager.g_gateway g.
Proof.
  destruct e as [get svc sid|m|sid|sid len| |sid t|ids]; cbn [mgr_step].
  - unfold mgr_connect. destruct (connect_inner g get svc sid) as [[[t mac] a]|]; unfold create_hup; cbn [next_id fst]; gsimp;
      [apply (wake_task_fields (set_order g (g_order g ++ [sid])))|].
    rewrite (proj1 (proj2 (wake_task_fields _))). reflexivity.
  - unfold mgr_send. cbv zeta. destruct (find_sess g (m_session m)) as [s|]; [destruct (sess_step _ _); reflexivity|].
    unfold create_hup. cbn [next_id fst]. rewrite (proj1 (proj2 (wake_task_fields _))). reflexivity.
  - unfold mgr_close. destruct (find_sess g sid) as [s|]; [destruct (sess_step s EClose); reflexivity|reflexivity].
  - unfold mgr_data_ack. destruct (find_sess g sid) as [s|]; [destruct (sess_step s _); reflexivity|reflexivity].
  - unfold mgr_poll. destruct (g_queue g); [|reflexivity]. pose proof (poll_loop_rest (length (g_order g)) g) as K.
    destruct (poll_loop (length (g_order g)) g) as [[r g1] o]. destruct K as (_ & K & _). destruct r; exact K.
  - destruct (find_sess g sid) as [s|]; [destruct (sess_step s _); reflexivity|reflexivity].
  - reflexivity.
Qed.
Lemma run_gateway es : forall g, Manager.g_gateway (fst (mgr_run g es)) = Manager.g_gateway g.
Proof.
  induction es as [|e es IH]; intros g; [reflexivity|]. cbn [mgr_run]. pose proof (step_gateway g e) as X.
  destruct (mgr_step g e) as [g1 o1]. specialize (IH g1). destruct (mgr_run g1 es) as [g2 o2]. cbn [fst] in *. congruence.
Qed.

Lemma open_origin t0 i v1 v2 es k h h1 sid ty mac a h2 :
  connection t0 i v1 v2 es = (k, h) -> h = h1 ++ XMgr (OOpen sid ty mac a) :: h2 -> bytes_received h ->
  exists h0 e m id svc s, h1 = h0 ++ [XRecv e m] /\ registered h0 = true /\
    server_says m {| cm_id := id; cm_type := 13; cm_body := BConnect svc sid |} /\
    v_get (e_table e) svc = Some s /\ s_addr s = Some a /\ ty = s_type s /\
    mac = match s_mac s with Some m => m | None => 0 end /\ (id_gateway i = true \/ loopback (sa_ip a)).
Proof.
  intros H Eh Hb. destruct (explained_all _ _ _ _ _ _ _ _ _ _ H Eh Logic.I) as [h2' Hw]. cbn [why] in Hw.
  destruct Hw as (h0 & e & m & c & svc & -> & (I & _ & _) & R & Hev & Hc).
  destruct Hev as [[_ Hev]|(Hs & cm & Hm & Hev)]; [discriminate|].
  assert (X : cm_type cm = 13 /\ cm_body cm = BConnect svc sid).
  { destruct (message_type (cm_type cm)) eqn:Et; try contradiction; destruct (cm_body cm); try contradiction; try discriminate.
    split; [apply (code_of_type _ CONNECT Et); auto|]. congruence. }
  destruct X as [X1 X2]. apply connect_inner_iff in Hc as (s & (C1 & C2 & C3 & C4) & -> & ->).
  exists h0, e, m, (cm_id cm), svc, s. split; [reflexivity|]. split; [exact R|]. split.
  - split; [exact Hs|]. apply accept_sound.
    + apply (Hb e). rewrite Eh. apply in_or_app. left. apply in_or_app. right. now left.
    + rewrite Hm. destruct cm. cbn in *. now subst.
  - split; [exact C2|]. split; [exact C3|]. split; [reflexivity|]. split; [reflexivity|].
    destruct (v_mgr _ _ _ _ _ I) as [mes Em]. pose proof (run_gateway mes (mgr_new SESSION_WINDOW_SIZE (id_gateway i) 0)) as G.
    rewrite Em in G. cbn [fst] in G. rewrite G in C4. exact C4.
Qed.

(** ** The sessions of a connection *)
Lemma connection_manager t0 i v1 v2 es k h :
  connection t0 i v1 v2 es = (k, h) -> k_result k = None ->
  exists mes, mgr_run (mgr_new 65536 (id_gateway i) 0) mes = (c_mgr (k_ctx k), manager_history h).
Proof. intros H Hr. destruct (running_full _ _ _ _ _ _ _ H Hr) as ((I & _ & _) & _). exact (v_mgr _ _ _ _ _ I). Qed.

Lemma asleep t0 i v1 v2 es k h :
  connection t0 i v1 v2 es = (k, h) -> k_result k = None -> c_run (k_ctx k) = false ->
  c_task (k_ctx k) = true /\ waiting h = Some [].
Proof.
  intros H Hr Hrun. destruct (running_full _ _ _ _ _ _ _ H Hr) as ((I & _ & _) & _). destruct (v_run _ _ _ _ _ I) as [X|[X1 X2]]; [congruence|].
  split; [exact X1|]. rewrite (v_wait _ _ _ _ _ I), X2. reflexivity.
Qed.

Lemma asleep_all t0 i v1 v2 es k h :
  connection t0 i v1 v2 es = (k, h) -> k_result k = None ->
  c_run (k_ctx k) = false -> g_run (c_mgr (k_ctx k)) = false ->
  (forall sid s, find_sess (c_mgr (k_ctx k)) sid = Some s -> s_mgr_run s = false) ->
  c_task (k_ctx k) = true /\ waiting h = Some [] /\ g_queue (c_mgr (k_ctx k)) = [] /\
  (forall sid s, find_sess (c_mgr (k_ctx k)) sid = Some s -> s_mgr_waker s = true /\ ~ has_report s).
Proof.
  intros H Hr H1 H2 H3. destruct (asleep _ _ _ _ _ _ _ H Hr H1) as [A B]. destruct (connection_manager _ _ _ _ _ _ _ H Hr) as [mes Em].
  destruct (no_lost_wakeup_task _ _ _ _ _ _ Em H2 H3) as (_ & C & D). auto.
Qed.

Lemma no_panic t0 i v1 v2 es k h : connection t0 i v1 v2 es = (k, h) -> k_result k <> Some (Failed EPanic).
Proof.
  intros H. apply connection_reached in H. unfold reached in H. destruct (k_result k) as [r|]; [|discriminate].
  destruct H as (c & h0 & o & _ & Hc & _). inversion Hc as [t e m kd c' Hd Hk|t e m c' tg Hd Ht|kd Hk|t a b d c' o' Ht]; subst; try discriminate; try congruence.
  destruct Hk; subst; discriminate.
Qed.

(** ** C12 on the receiving side *)
Definition get9 : N -> option service := fun n => if n =? 5 then Some (tcp1 9) else None.
Definition view9 : view := {| v_visible := [(5, tcp1 9)]; v_version := 1; v_get := get9 |}.
Definition control_msg (payload : bytes) : amsg := {| m_service := 0; m_session := 0; m_payload := payload |}.
(** CONNECT to service 5 as session [r 0 0 7], HUP for session [r 0 0 7]. *)
Definition connect_msg (r : N) : amsg := control_msg [0; 50; 0; 13; 0; 5; r; 0; 0; 7].
Definition hup_msg (r : N) : amsg := control_msg [0; 51; 0; 5; r; 0; 0; 7; 0; 0; 0; 0].
Definition up_events : list kev := [KPoll []; KPoll [SMsg 1 (env0 view9) (ack_msg 0 0)]].
Definition session_events (r : N) : list kev := up_events ++ [KPoll [SMsg 2 (env0 view9) (connect_msg r)]].

Lemma reserved_hup_refuted :
  exists (i : identity) (v : view) (e : env) (es : list kev) (sid : N) (m m' : amsg),
    let run := fun last => manager_history (snd (connection 0 i v v (es ++ [KPoll [SMsg 3 e last]]))) in
    server_says m {| cm_id := 51; cm_type := 5; cm_body := BHup sid 0 |} /\
    server_says m' {| cm_id := 51; cm_type := 5; cm_body := BHup (sid + 2 ^ 24) 0 |} /\
    life sid (run m) = Some false /\ life sid (run m') = Some true.
Proof.
  exists race_id, view9, (env0 view9), (session_events 0), 7, (hup_msg 0), (hup_msg 1). cbv zeta.
  split; [split; [reflexivity|apply accept_iff; [repeat constructor|reflexivity]]|].
  split; [split; [reflexivity|apply accept_iff; [repeat constructor|reflexivity]]|].
  split; vm_compute; reflexivity.
Qed.

Lemma reserved_connect_refuted :
  exists (i : identity) (v : view) (es : list kev) (sid : N),
    2 ^ 24 <= sid /\ life sid (manager_history (snd (connection 0 i v v es))) = Some true.
Proof.
  exists race_id, view9, (session_events 1), (7 + 2 ^ 24). split; [lia|]. vm_compute. reflexivity.
Qed.

Lemma alookup_in {A} k (l : list (N * A)) x : alookup k l = Some x -> In (k, x) l.
Proof.
  induction l as [|[k' y] l IH]; [discriminate|]. cbn [alookup]. destruct (N.eqb_spec k k') as [->|]; [intros [= ->]; now left|right; auto].
Qed.
