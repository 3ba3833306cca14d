(** C142: control messages that wait are sent, whatever the server does. *)
From Coq Require Import NArith ZArith List Bool Lia ZifyBool ZifyNat ZifyN.
From Verif.Model Require Import Bytes Frame Service Control Alist Session Manager Client.
From Verif.Spec Require Import ControlSpec ManagerSpec ClientSpec EventsSpec QueueSpec FairSpec.
From Verif.Proofs Require Import BytesFacts ControlProofs ManagerProofs ClientProofs ClientInv ClientRun ClientPropsPf ClientPropsPf2 QueuePf EventsProofs ProgressLift FairPf.
Import ListNotations.
Local Open Scope N_scope.

(** ** The queue of control messages only grows at its end, except for the poll that takes its head *)
Definition grows (c c' : ctx) : Prop := exists r, c_messages c' = c_messages c ++ r.

Lemma grows_same c c' : c_messages c' = c_messages c -> grows c c'.
Proof. intros E. exists []. now rewrite app_nil_r. Qed.
Lemma grows_trans a b c : grows a b -> grows b c -> grows a c.
Proof. intros [r1 E1] [r2 E2]. exists (r1 ++ r2). rewrite E2, E1. now rewrite app_assoc. Qed.

Lemma grows_send t c m : grows c (fst (send_control t c m)).
Proof. unfold send_control. exists [amsg_of_cmsg m]. cbn [fst]. destruct (c_task _); reflexivity. Qed.
Lemma grows_id c : grows c (snd (c_next_id c)).
Proof. unfold c_next_id. destruct (next_id (g_factory (c_mgr c))) as [n f]. now apply grows_same. Qed.
Lemma grows_id_send t c m : grows c (fst (send_control t (snd (c_next_id c)) m)).
Proof. exact (grows_trans _ _ _ (grows_id c) (grows_send t _ m)). Qed.
Lemma grows_mgr c x : grows c (fst (lift_mgr c x)).
Proof. destruct x as [g o]. now apply grows_same. Qed.

Lemma grows_control t e c m r c' o : process_control t e c m = (r, c', o) -> grows c c'.
Proof.
  intros H.
  assert (R : grows c c) by (now apply grows_same).
  assert (ES : forall x : ctx * list cobs, grows c (fst x) ->
     (if c_established c then (None, fst x, snd x) else (Some OtherError, c, [])) = (r, c', o) -> grows c c').
  { intros x X Y. destruct (c_established c); injection Y as _ <- _; [exact X|exact R]. }
  unfold process_control in H. cbv zeta in H. destruct (message_type (cm_type m)) eqn:T; destruct (cm_body m) eqn:B;
    first [ injection H as _ <- _; exact R
      | exact (ES _ (grows_mgr _ _) H)
      | exact (ES _ (grows_send _ _ _) H)
      | pose proof (fun m' => ES _ (grows_id_send t c m')) as Q; destruct (c_next_id c) as [i1 c1]; cbn [snd] in Q; exact (Q _ H)
      | match type of H with context [XCmd ?x] => exact (ES (c, [XCmd x]) R H) end
      | refine (ES (_, _) _ H); apply grows_same; cbn [fst]; match goal with |- context [if ?b then _ else _] => destruct b end; reflexivity
      | match type of H with context [process_ack ?a ?b ?d ?f] => destruct (process_ack a b d f) as [r1 c1] eqn:P end;
        injection H as _ <- _; apply grows_same; unfold process_ack, handshake_ack in P;
        repeat match type of P with context [match ?x with _ => _ end] => destruct x end; injection P as _ <-; reflexivity ].
Qed.

Lemma grows_feed c i r c' o : feed_item c i = (r, c', o) -> grows c c'.
Proof.
  intros H. destruct i as [t e m| |]; cbn [feed_item] in H; [|injection H as _ <- _; now apply grows_same|injection H as _ <- _; now apply grows_same].
  unfold process_message in H. destruct (is_closed c); [injection H as _ <- _; now apply grows_same|].
  match type of H with match ?x with _ => _ end = _ => destruct x as [[r1 c1] o1] eqn:X end. injection H as _ <- _.
  destruct (m_service m =? 0).
  - destruct (cmsg_from_bytes (m_payload m)) as [cm| |]; [exact (grows_control _ _ _ _ _ _ _ X)|injection X as _ <- _; now apply grows_same|injection X as _ <- _; now apply grows_same].
  - destruct (c_established c); [|injection X as _ <- _; now apply grows_same].
    destruct (mgr_send (c_mgr c) m) as [g og]. cbn [lift_mgr] in X. injection X as _ <- _. now apply grows_same.
Qed.

Lemma grows_time t c v0 v1 v2 r c' o : time_event t c v0 v1 v2 = (r, c', o) -> grows c c'.
Proof.
  intros H. unfold time_event in H.
  match type of H with match ?x with _ => _ end = _ => destruct x as [c2 o2] eqn:X end. injection H as _ <- _.
  destruct (c_established c); [|injection X as <- _; now apply grows_same].
  match type of X with match ?x with _ => _ end = _ => destruct x as [c3 o3] eqn:Y end.
  match type of X with match ?x with _ => _ end = _ => destruct x as [c4 o4] eqn:Z end. injection X as <- _.
  apply (grows_trans c c3 c4).
  - destruct (PING_PERIOD <=? t - c_last_ping c)%Z; [|injection Y as <- _; now apply grows_same].
    unfold send_ping, send_unconfirmed in Y. pose proof (grows_id c) as MI. destruct (c_next_id c) as [n c1]. cbn [snd] in MI.
    match type of Y with context [send_control t ?cc ?mm] => pose proof (grows_send t cc mm) as MS; destruct (send_control t cc mm) as [d od] end.
    injection Y as <- _. cbn [fst] in MS. exact (grows_trans _ _ _ MI MS).
  - destruct (UPDATE_CHECK_PERIOD <=? t - c_last_check c3)%Z; [|injection Z as <- _; now apply grows_same].
    unfold check_for_updates, send_update in Z. destruct (c_version c3 =? v_version v0); [injection Z as <- _; now apply grows_same|].
    cbv zeta in Z. pose proof (grows_id c3) as MI. destruct (c_next_id c3) as [n c1]. cbn [snd] in MI.
    match type of Z with context [send_control t ?cc ?mm] => pose proof (grows_send t cc mm) as MS; destruct (send_control t cc mm) as [d od] end.
    injection Z as <- _. cbn [fst] in MS. exact (grows_trans _ _ _ MI MS).
Qed.

(** ** Nothing but a poll of the connection sends *)
Definition mute (o : list cobs) : Prop := ClientSpec.sent o = [].
Lemma mute_app a b : mute a -> mute b -> mute (a ++ b).
Proof. unfold mute. intros A B. now rewrite ClientInv.sent_app, A, B. Qed.
Lemma mute_mgr o : mute (map XMgr o).
Proof. exact (sent_mgr [] o). Qed.
Lemma mute_lift c x : mute (snd (lift_mgr c x)).
Proof. destruct x as [g o]. cbn [lift_mgr snd]. apply mute_mgr. Qed.

Lemma mute_control t e c m r c' o : process_control t e c m = (r, c', o) -> mute o.
Proof.
  intros H.
  assert (R : mute []) by reflexivity.
  assert (ES : forall x : ctx * list cobs, mute (snd x) ->
     (if c_established c then (None, fst x, snd x) else (Some OtherError, c, [])) = (r, c', o) -> mute o).
  { intros x X Y. destruct (c_established c); injection Y as _ _ <-; [exact X|exact R]. }
  assert (SC : forall t0 c0 m0, mute (snd (send_control t0 c0 m0))) by reflexivity.
  unfold process_control in H. cbv zeta in H. destruct (message_type (cm_type m)) eqn:T; destruct (cm_body m) eqn:B;
    first [ injection H as _ _ <-; exact R
      | exact (ES _ (mute_lift _ _) H)
      | exact (ES _ (SC _ _ _) H)
      | destruct (c_next_id c) as [i1 c1]; exact (ES _ (SC _ _ _) H)
      | match type of H with context [XCmd ?x] => exact (ES (c, [XCmd x]) eq_refl H) end
      | refine (ES (_, _) _ H); exact R
      | match type of H with context [process_ack ?a ?b ?d ?f] => destruct (process_ack a b d f) as [r1 c1] eqn:P end;
        injection H as _ _ <-; exact R ].
Qed.

Lemma mute_feed c i r c' o : feed_item c i = (r, c', o) -> mute o.
Proof.
  intros H. destruct i as [t e m| |]; cbn [feed_item] in H; [|injection H as _ _ <-; reflexivity..].
  unfold process_message in H. destruct (is_closed c); [injection H as _ _ <-; reflexivity|].
  match type of H with match ?x with _ => _ end = _ => destruct x as [[r1 c1] o1] eqn:X end. injection H as _ _ <-.
  change (mute o1). destruct (m_service m =? 0).
  - destruct (cmsg_from_bytes (m_payload m)) as [cm| |]; [exact (mute_control _ _ _ _ _ _ _ X)|injection X as _ _ <-; reflexivity..].
  - destruct (c_established c); [|injection X as _ _ <-; reflexivity].
    pose proof (mute_lift c (mgr_send (c_mgr c) m)) as L. destruct (lift_mgr c (mgr_send (c_mgr c) m)) as [c2 o2]. injection X as _ _ <-. exact L.
Qed.

Lemma mute_ctx c p c' o : ctx_poll c = (p, c', o) -> mute o.
Proof.
  unfold ctx_poll. destruct (is_closed c); [intros H; injection H as _ _ <-; reflexivity|].
  destruct (c_messages c); [|intros H; injection H as _ _ <-; reflexivity].
  destruct (mgr_poll (c_mgr c)) as [g og]. cbv zeta. intros H. destruct (polled_msg og); injection H as _ _ <-; apply mute_mgr.
Qed.

Lemma mute_loop items : forall c p c' o, client_loop c items = (p, c', o) -> mute o.
Proof.
  induction items as [|i items IH]; intros c p c' o H; cbn [client_loop] in H; destruct (ctx_poll c) as [[p1 c1] o1] eqn:E;
    pose proof (mute_ctx _ _ _ _ E) as M.
  - destruct p1; injection H as _ _ <-; exact M.
  - destruct p1; try (injection H as _ _ <-; exact M).
    destruct (feed_item c1 i) as [[r c2] o2] eqn:F. pose proof (mute_feed _ _ _ _ _ F) as M2.
    destruct r; [injection H as _ _ <-; now apply mute_app|].
    destruct (client_loop c2 items) as [[p3 c3] o3] eqn:L. injection H as _ _ <-. apply mute_app; [exact M|]. apply mute_app; [exact M2|].
    exact (IH _ _ _ _ L).
Qed.

Lemma mute_client c items p c' o : client_poll c items = (p, c', o) -> mute o.
Proof.
  intros H. unfold client_poll in H. destruct items as [|i items]; [exact (mute_loop _ _ _ _ _ H)|].
  destruct (feed_item c i) as [[r c1] o1] eqn:F. pose proof (mute_feed _ _ _ _ _ F) as M.
  destruct r; [injection H as _ _ <-; exact M|].
  destruct (client_loop c1 items) as [[p2 c2] o2] eqn:L. injection H as _ _ <-. apply mute_app; [exact M|exact (mute_loop _ _ _ _ _ L)].
Qed.

Lemma mute_time t c v0 v1 v2 r c' o : time_event t c v0 v1 v2 = (r, c', o) -> mute o.
Proof.
  unfold time_event, check_for_updates, send_ping, send_update, c_next_id. cbn [next_id]. unfold send_unconfirmed, send_control. intros H.
  repeat match type of H with context [if ?b then _ else _] => destruct b end; injection H as _ _ <-; reflexivity.
Qed.

(** ** A poll takes the head of the queue *)
Lemma loop_head m q items c p c' o :
  c_messages c = m :: q -> client_loop c items = (p, c', o) -> goes_on p -> p = PReady m /\ c_messages c' = q.
Proof.
  intros Q H G. destruct items as [|i items]; cbn [client_loop] in H; unfold ctx_poll in H; rewrite Q in H;
    destruct (is_closed c); injection H as <- <- _; solve [destruct G | split; reflexivity].
Qed.

Lemma client_head m q c items p c' o :
  c_messages c = m :: q -> client_poll c items = (p, c', o) -> goes_on p -> p = PReady m /\ exists r, c_messages c' = q ++ r.
Proof.
  intros Q H G. unfold client_poll in H. destruct items as [|i items].
  - destruct (loop_head _ _ _ _ _ _ _ Q H G) as [A B]. split; [exact A|]. exists []. now rewrite app_nil_r.
  - destruct (feed_item c i) as [[r c1] o1] eqn:F. destruct r; [injection H as <- _ _; destruct G|].
    destruct (client_loop c1 items) as [[p2 c2] o2] eqn:L. injection H as <- <- _.
    destruct (grows_feed _ _ _ _ _ F) as [x X]. rewrite Q in X. cbn [app] in X.
    destruct (loop_head _ _ _ _ _ _ _ X L G) as [A B]. split; [exact A|]. exists x. exact B.
Qed.

Lemma queue_sent es : forall k k' o q,
  conn_run k es = (k', o) -> k_result k' = None -> (exists r, c_messages (k_ctx k) = q ++ r) -> (length q <= client_polls es)%nat ->
  exists rest, ClientSpec.sent o = q ++ rest.
Proof.
  induction es as [|e es IH]; intros k k' o q H R [r Q] L.
  - unfold client_polls in L. cbn [filter length] in L. destruct q; [|cbn in L; lia]. exists (ClientSpec.sent o). reflexivity.
  - cbn [conn_run] in H. destruct (conn_step k e) as [k1 o1] eqn:E1. destruct (conn_run k1 es) as [k2 o2] eqn:E2. injection H as -> <-.
    assert (R1 : k_result k1 = None).
    { destruct (k_result k1) eqn:X; [|reflexivity]. exfalso. pose proof (result_stays es k1) as Y. rewrite X, E2 in Y. apply Y; [discriminate|exact R]. }
    assert (R0 : k_result k = None).
    { destruct (k_result k) eqn:X; [|reflexivity]. exfalso. pose proof (result_stays [e] k) as Y. cbn [conn_run] in Y. rewrite X, E1 in Y. apply Y; [discriminate|exact R1]. }
    destruct q as [|m q]; [eexists; reflexivity|].
    unfold client_polls in L. cbn [filter] in L. rewrite ClientInv.sent_app.
    assert (KEEP : is_poll e = false -> ClientSpec.sent o1 = [] -> grows (k_ctx k) (k_ctx k1) -> exists rest, ClientSpec.sent o1 ++ ClientSpec.sent o2 = (m :: q) ++ rest).
    { intros P S0 [x X]. rewrite S0. rewrite P in L. refine (IH _ _ _ (m :: q) E2 R _ L). exists (r ++ x). rewrite X, Q. now rewrite app_assoc. }
    unfold conn_step in E1. rewrite R0 in E1. destruct e as [items|t a b d| |s te].
    + clear KEEP. cbn [is_poll length] in L. destruct (client_poll (k_ctx k) items) as [[p c1] o3] eqn:E. pose proof (mute_client _ _ _ _ _ E) as M.
      assert (G : goes_on p) by (destruct p; injection E1 as <- _; cbn [k_result] in R1; try discriminate R1; exact Logic.I).
      cbn [app] in Q. destruct (client_head _ _ _ _ _ _ _ Q E G) as [-> [x X]]. injection E1 as <- <-.
      rewrite ClientInv.sent_app, M. cbn [ClientSpec.sent flat_map app].
      destruct (IH _ _ _ q E2 R) as [rest Z]; [exists (r ++ x); cbn [k_ctx]; rewrite X; now rewrite app_assoc|unfold client_polls; lia|].
      exists rest. cbn [app]. now rewrite Z.
    + apply KEEP; [reflexivity| |].
      * destruct (is_closed (k_ctx k)); [injection E1 as _ <-; reflexivity|].
        destruct (time_event t (k_ctx k) a b d) as [[r1 c1] o3] eqn:E. injection E1 as _ <-. exact (mute_time _ _ _ _ _ _ _ _ E).
      * destruct (is_closed (k_ctx k)); [injection E1 as <- _; now apply grows_same|].
        destruct (time_event t (k_ctx k) a b d) as [[r1 c1] o3] eqn:E. injection E1 as <- _. exact (grows_time _ _ _ _ _ _ _ _ E).
    + injection E1 as <- _. discriminate R1.
    + apply KEEP; [reflexivity| |];
        [pose proof (mute_lift (k_ctx k) (mgr_step (c_mgr (k_ctx k)) (MTransport s te))) as X|pose proof (grows_mgr (k_ctx k) (mgr_step (c_mgr (k_ctx k)) (MTransport s te))) as X];
        destruct (lift_mgr (k_ctx k) (mgr_step (c_mgr (k_ctx k)) (MTransport s te))) as [c1 o3]; injection E1 as <- <-; exact X.
Qed.

Lemma owed_sent t i v1 v2 es1 k1 h1 q es2 k2 h2 :
  connection t i v1 v2 es1 = (k1, h1) -> waiting h1 = Some q -> conn_run k1 es2 = (k2, h2) -> k_result k2 = None ->
  (length q <= client_polls es2)%nat -> exists rest, ClientSpec.sent h2 = q ++ rest.
Proof.
  intros H W H2 R L.
  assert (R1 : k_result k1 = None).
  { destruct (k_result k1) eqn:X; [|reflexivity]. exfalso. pose proof (result_stays es2 k1) as Y. rewrite X, H2 in Y. apply Y; [discriminate|exact R]. }
  pose proof (running_full _ _ _ _ _ _ _ H R1) as F. destruct F as ((I & _ & _) & _).
  rewrite (v_wait _ _ _ _ _ I) in W. injection W as <-.
  refine (queue_sent es2 k1 k2 h2 _ H2 R _ L). exists []. now rewrite app_nil_r.
Qed.

(** ** Everything that was produced is sent *)
Lemma ss_trans {A} (a b c : list A) : subseq a b -> subseq b c -> subseq a c.
Proof.
  intros X Y. revert a X. induction Y as [|x p q Y IH|x p q Y IH]; intros a X; [exact X| |].
  - inversion X as [|x' a' p' X'|x' a' p' X']; subst; [apply ss_keep; auto|apply ss_skip; auto].
  - apply ss_skip. auto.
Qed.
Lemma ss_none {A} (l : list A) : subseq [] l.
Proof. induction l; [constructor|now apply ss_skip]. Qed.
Lemma ss_filter {A} (f : A -> bool) l : subseq (filter f l) l.
Proof. induction l as [|x l IH]; [constructor|]. cbn [filter]. destruct (f x); [now apply ss_keep|now apply ss_skip]. Qed.
Lemma ss_map {A B} (f : A -> B) p q : subseq p q -> subseq (map f p) (map f q).
Proof. intros X. induction X; cbn [map]; constructor; auto. Qed.

Lemma waiting_none h : fold_left waiting_step h None = None.
Proof. induction h as [|x h IH]; [reflexivity|exact IH]. Qed.

Lemma produced_sent h : forall q q', fold_left waiting_step h (Some q) = Some q' ->
  subseq (q ++ map amsg_of_cmsg (produced h)) (ClientSpec.sent h ++ q').
Proof.
  induction h as [|x h IH]; intros q q' H.
  - cbn in H. injection H as <-. cbn. rewrite app_nil_r. apply ss_refl.
  - cbn [fold_left] in H.
    assert (SAME : waiting_step (Some q) x = Some q -> produced [x] = [] -> ClientSpec.sent [x] = [] ->
       subseq (q ++ map amsg_of_cmsg (produced (x :: h))) (ClientSpec.sent (x :: h) ++ q')).
    { intros A B D. change (x :: h) with ([x] ++ h). rewrite produced_app, ClientInv.sent_app, B, D. cbn [app]. apply IH. now rewrite <- A. }
    destruct x as [e m|t a b d|t m|o|c|m]; try (apply SAME; reflexivity).
    + cbn [waiting_step] in H. apply IH in H. change (XQueue t m :: h) with ([XQueue t m] ++ h).
      rewrite produced_app, ClientInv.sent_app. cbn [produced ClientSpec.sent flat_map app map].
      rewrite <- app_assoc in H. exact H.
    + cbn [waiting_step] in H. change (XSent m :: h) with ([XSent m] ++ h). rewrite produced_app, ClientInv.sent_app.
      cbn [produced ClientSpec.sent flat_map app]. destruct q as [|m' q].
      * apply IH in H. cbn [app] in H |- *. apply ss_skip. exact H.
      * destruct ((m_service m =? m_service m') && (m_session m =? m_session m') && beq (m_payload m) (m_payload m')) eqn:E; [|now rewrite waiting_none in H].
        apply andb_prop in E as [E E3]. apply andb_prop in E as [E1 E2]. apply N.eqb_eq in E1, E2. apply beq_spec in E3.
        assert (m = m') as -> by (destruct m, m'; cbn in *; now subst). apply IH in H. cbn [app]. apply ss_keep. exact H.
Qed.

Lemma all_sent t i v1 v2 es1 k1 h1 es2 k2 h2 :
  connection t i v1 v2 es1 = (k1, h1) -> conn_run k1 es2 = (k2, h2) -> k_result k2 = None ->
  (1 + updates h1 <= client_polls es2)%nat ->
  subseq (map amsg_of_cmsg (produced h1)) (ClientSpec.sent (h1 ++ h2)).
Proof.
  intros H H2 R L.
  assert (R1 : k_result k1 = None).
  { destruct (k_result k1) eqn:X; [|reflexivity]. exfalso. pose proof (result_stays es2 k1) as Y. rewrite X, H2 in Y. apply Y; [discriminate|exact R]. }
  pose proof (proj1 (backlog_bound _ _ _ _ _ _ _ H R1)) as BB. unfold backlog in BB.
  pose proof (running_full _ _ _ _ _ _ _ H R1) as F. destruct F as ((I & _ & _) & _). pose proof (v_wait _ _ _ _ _ I) as W.
  destruct (owed_sent _ _ _ _ _ _ _ _ _ _ _ H W H2 R) as [rest Z]; [lia|].
  pose proof (produced_sent h1 [] _ W) as P. cbn [app] in P. rewrite ClientInv.sent_app, Z, app_assoc. apply ss_right. exact P.
Qed.

Lemma answered_sent t i v1 v2 es1 k1 h1 es2 k2 h2 :
  connection t i v1 v2 es1 = (k1, h1) -> conn_run k1 es2 = (k2, h2) -> k_result k2 = None ->
  (1 + updates h1 <= client_polls es2)%nat ->
  exists ans, Forall2 answer (asked h1) ans /\ subseq (map amsg_of_cmsg ans) (ClientSpec.sent (h1 ++ h2)).
Proof.
  intros H H2 R L. exists (answers h1). split; [exact (answers_match _ _ _ _ _ _ _ H)|].
  refine (ss_trans _ _ _ _ (all_sent _ _ _ _ _ _ _ _ _ _ H H2 R L)). unfold answers. apply ss_map, ss_filter.
Qed.
