(** The data of the sessions are carried without being looked at: the session manager and the connection. *)
From Coq Require Import NArith ZArith List Bool Lia.
From Verif.Model Require Import Bytes Frame Service Control Alist Session Manager Client Journal.
From Verif.Model Require Import SvcTable.
From Verif.Spec Require Import TableSpec ConfigSpec OpaqueSpec.
From Verif.Proofs Require Import EndToEnd OpaquePf.
Import ListNotations.
Local Open Scope N_scope.

Section Renaming.
  Variable f : N -> N -> N.
  Notation own := (own f). Notation ren_msg := (ren_msg f). Notation ren_rd := (ren_rd f). Notation ren_sobs := (ren_sobs f).
  Notation ren_sev := (ren_sev f). Notation ren_mobs := (ren_mobs f). Notation ren_cobs := (ren_cobs f). Notation ren_tev := (ren_tev f).
  Notation ren_item := (ren_item f). Notation ren_kev := (ren_kev f). Notation ren_sess := (ren_sess f). Notation ren_taken := (ren_taken f).

  Lemma ren_transport s r w : transport_poll (ren_sess s) (ren_rd (s_session s) r) w =
    (ren_sess (fst (transport_poll s r w)), map (ren_sobs (s_session s)) (snd (transport_poll s r w))).
  Proof.
    unfold transport_poll. cbn [OpaquePf.ren_sess s_phase]. destruct (s_phase s); try reflexivity.
    change (with_tr (ren_sess s) (s_tr_waker (ren_sess s)) false) with (ren_sess (with_tr s (s_tr_waker s) false)).
    set (s0 := with_tr s (s_tr_waker s) false). cbv zeta. cbn [OpaquePf.ren_sess s_closed]. destruct (s_closed s0); [reflexivity|].
    change (s_session s) with (s_session s0). pose proof (ren_read f s0 r) as R. rewrite R. clear R.
    destruct (poll_read_input s0 r) as [[b1 s1] o1] eqn:E1.
    assert (K1 : s_session s1 = s_session s0).
    { revert E1. unfold poll_read_input. destruct (s_closed s0); [now intros [= _ <- _]|]. destruct (_ <=? _); [now intros [= _ <- _]|].
      assert (C : forall x, s_session (sess_close x) = s_session x).
      { intros x. unfold sess_close. rewrite (proj1 (keep_wake_mgr _)), (proj1 (keep_wake_tr _)). reflexivity. }
      destruct r as [|b|]; [now intros [= _ <- _]| |]; intros [= _ <- _].
      - destruct b as [|x b].
        + destruct (s_input (sess_close _)); [|rewrite (proj1 (keep_wake_mgr _))]; rewrite C; reflexivity.
        + destruct (s_input (with_input _ _)); [|rewrite (proj1 (keep_wake_mgr _))]; reflexivity.
      - assert (SE : forall x, s_session (sess_set_error x) = s_session x) by (intros x; unfold sess_set_error; destruct (s_closed x); [reflexivity|rewrite C; reflexivity]).
        destruct (s_input (sess_set_error _)); [|rewrite (proj1 (keep_wake_mgr _))]; rewrite SE; reflexivity. }
    rewrite ren_write, K1. destruct (poll_write_output s1 w) as [[b2 s2] o2]. cbn [fst snd]. rewrite map_app. f_equal. destruct (b1 || b2); reflexivity.
  Qed.

  Lemma ren_step s e s' o : s_service s <> 0 -> sess_step s e = (s', o) ->
    sess_step (ren_sess s) (ren_sev (s_session s) e) = (ren_sess s', map (ren_sobs (s_session s)) o).
  Proof.
    intros V. destruct e; cbn [sess_step OpaqueSpec.ren_sev].
    - intros [= <- <-]. unfold sess_data_ack. rewrite <- ren_wake_mgr. reflexivity.
    - intros E. rewrite ren_push, E. reflexivity.
    - destruct (sess_take f0 s) as [[[t s1] f1] o1] eqn:E. intros [= <- <-]. now rewrite (ren_take f f0 s V _ _ _ _ E).
    - intros [= <- <-]. now rewrite ren_close.
    - cbn [OpaquePf.ren_sess s_phase]. destruct (s_phase s); intros [= <- <-]; reflexivity.
    - cbn [OpaquePf.ren_sess s_phase]. destruct (s_phase s); intros [= <- <-]; try reflexivity. rewrite ren_error. reflexivity.
    - intros E. rewrite ren_transport, E. reflexivity.
    - cbn [OpaquePf.ren_sess s_wait_rd]. destruct (s_wait_rd s); intros [= <- <-]; reflexivity.
    - cbn [OpaquePf.ren_sess s_wait_wr]. destruct (s_wait_wr s); intros [= <- <-]; reflexivity.
  Qed.

  (** The session manager *)
  Definition ren_all (l : list (N * sess)) : list (N * sess) := map (fun p => (fst p, ren_sess (snd p))) l.
  Definition ren_mgr (g : mgr) : mgr :=
    {| g_window := g_window g; g_gateway := g_gateway g; g_factory := g_factory g; g_queue := map ren_msg (g_queue g);
       g_sessions := ren_all (g_sessions g); g_order := g_order g; g_task := g_task g; g_run := g_run g |}.
  Definition mine (g : mgr) : Prop := forall k s, find_sess g k = Some s -> s_session s = k /\ s_service s <> 0.

  Lemma ren_lookup l k : alookup k (ren_all l) = option_map ren_sess (alookup k l).
  Proof. induction l as [|[a s] l IH]; [reflexivity|]. cbn. destruct (k =? a); [reflexivity|exact IH]. Qed.
  Lemma ren_find g k : find_sess (ren_mgr g) k = option_map ren_sess (find_sess g k).
  Proof. apply ren_lookup. Qed.
  Lemma ren_insert l k s : ainsert k (ren_sess s) (ren_all l) = ren_all (ainsert k s l).
  Proof. induction l as [|[a x] l IH]; [reflexivity|]. cbn. destruct (k =? a); [reflexivity|]. unfold ren_all in IH |- *. cbn. now rewrite IH. Qed.
  Lemma ren_remove l k : aremove k (ren_all l) = ren_all (aremove k l).
  Proof. induction l as [|[a x] l IH]; [reflexivity|]. cbn. unfold aremove, ren_all in *. destruct (k =? a); cbn; [exact IH|]. now rewrite IH. Qed.
  Lemma ren_set g k s : set_sess (ren_mgr g) k (ren_sess s) = ren_mgr (set_sess g k s).
  Proof. unfold set_sess, set_sessions, ren_mgr. cbn. now rewrite ren_insert. Qed.
  Lemma ren_del g k : set_sessions (ren_mgr g) (aremove k (g_sessions (ren_mgr g))) = ren_mgr (set_sessions g (aremove k (g_sessions g))).
  Proof. unfold set_sessions, ren_mgr. cbn [g_sessions g_window g_gateway g_factory g_queue g_order g_task g_run]. now rewrite ren_remove. Qed.
  Lemma ren_wake g : wake_task (ren_mgr g) = ren_mgr (wake_task g).
  Proof. unfold wake_task. cbn [ren_mgr g_task]. destruct (g_task g); reflexivity. Qed.
  Lemma ren_hup g sid code : create_hup (ren_mgr g) sid code = (fst (create_hup g sid code), ren_mgr (snd (create_hup g sid code))).
  Proof. unfold create_hup. cbn [ren_mgr g_factory]. destruct (next_id (g_factory g)). reflexivity. Qed.
  Lemma hup_msg g sid code : ren_msg (fst (create_hup g sid code)) = fst (create_hup g sid code).
  Proof. unfold create_hup. destruct (next_id (g_factory g)). reflexivity. Qed.
  Lemma hup_find g sid code k : find_sess (snd (create_hup g sid code)) k = find_sess g k.
  Proof. unfold create_hup. destruct (next_id (g_factory g)). reflexivity. Qed.
  Lemma ren_queue g m : ren_msg m = m -> set_queue (ren_mgr g) (g_queue (ren_mgr g) ++ [m]) = ren_mgr (set_queue g (g_queue g ++ [m])).
  Proof. intros E. unfold set_queue, ren_mgr. cbn. rewrite map_app. cbn [map]. now rewrite E. Qed.

  Lemma mine_same g g' : (forall k, find_sess g' k = find_sess g k) -> mine g -> mine g'.
  Proof. intros E M k s. rewrite E. apply M. Qed.
  Lemma mine_set g k s : s_session s = k -> s_service s <> 0 -> mine g -> mine (set_sess g k s).
  Proof. intros A B M k' s'. rewrite find_set. destruct (N.eqb_spec k' k) as [->|]; [intros [= <-]; auto|apply M]. Qed.
  Lemma mine_del g k : mine g -> mine (set_sessions g (aremove k (g_sessions g))).
  Proof. intros M k' s'. unfold find_sess. cbn [set_sessions g_sessions]. rewrite find_remove. destruct (k' =? k); [discriminate|apply M]. Qed.

  Definition done (r : mgr * list mobs) : mgr * list mobs := (ren_mgr (fst r), map ren_mobs (snd r)).
  Definition plain_get (get : N -> option service) : Prop := forall s, get 0 = Some s -> s_addr s = None.

  Lemma hup_step g sid (P : bool) : mine g ->
    let r := (let '(m, g1) := create_hup g sid EC_CONNECTION_ERROR in (wake_task (set_queue g1 (g_queue g1 ++ [m])), [OQueued m])) in
    (let '(m, g1) := create_hup (ren_mgr g) sid EC_CONNECTION_ERROR in (wake_task (set_queue g1 (g_queue g1 ++ [m])), [OQueued m])) = done r /\ mine (fst r).
  Proof.
    intros M. cbv zeta. rewrite ren_hup. destruct (create_hup g sid EC_CONNECTION_ERROR) as [m g1] eqn:E. cbn [fst snd].
    pose proof (hup_msg g sid EC_CONNECTION_ERROR) as H. rewrite E in H. cbn [fst] in H. split.
    - unfold done. cbn [fst snd map OpaqueSpec.ren_mobs]. rewrite (ren_queue g1 m H), ren_wake, H. reflexivity.
    - intros k s. rewrite find_wake. change (find_sess (set_queue g1 (g_queue g1 ++ [m])) k) with (find_sess g1 k).
      pose proof (hup_find g sid EC_CONNECTION_ERROR k) as F. rewrite E in F. cbn [snd] in F. rewrite F. apply M.
  Qed.

  Lemma ren_connect g get svc sid : mine g -> plain_get get ->
    mgr_connect (ren_mgr g) get svc sid = done (mgr_connect g get svc sid) /\ mine (fst (mgr_connect g get svc sid)).
  Proof.
    intros M PG. unfold mgr_connect.
    assert (E : connect_inner (ren_mgr g) get svc sid = connect_inner g get svc sid).
    { unfold connect_inner. rewrite ren_find. destruct (find_sess g sid); reflexivity. }
    rewrite E. destruct (connect_inner g get svc sid) as [[[t mac] a]|] eqn:C; [|exact (hup_step g sid true M)].
    assert (V : svc <> 0).
    { intros ->. unfold connect_inner in C. destruct (find_sess g sid); [discriminate|]. destruct (get 0) as [s|] eqn:G; [|discriminate].
      rewrite (PG s G) in C. discriminate. }
    cbv zeta. split.
    - unfold done. cbn [fst snd map OpaqueSpec.ren_mobs].
      change (set_order (ren_mgr g) (g_order (ren_mgr g) ++ [sid])) with (ren_mgr (set_order g (g_order g ++ [sid]))). rewrite ren_wake.
      rewrite <- ren_set. reflexivity.
    - apply mine_set; [reflexivity|exact V|]. apply (mine_same g); [|exact M]. intros k. rewrite find_wake. reflexivity.
  Qed.

  Lemma one_step g sid s e : mine g -> find_sess g sid = Some s ->
    (let '(s', o) := sess_step (ren_sess s) (ren_sev sid e) in (set_sess (ren_mgr g) sid s', [OSess sid (ren_sev sid e) o])) =
      done (let '(s', o) := sess_step s e in (set_sess g sid s', [OSess sid e o])) /\
    mine (fst (let '(s', o) := sess_step s e in (set_sess g sid s', [OSess sid e o]))).
  Proof.
    intros M F. destruct (M sid s F) as [K V]. pose proof (kept s e) as [A B]. destruct (sess_step s e) as [s' o] eqn:E. cbn [fst] in *.
    pose proof (ren_step s e s' o V E) as R. rewrite K in R. rewrite R. split.
    - unfold done. cbn [fst snd map OpaqueSpec.ren_mobs]. now rewrite ren_set.
    - apply mine_set; congruence || (rewrite B; exact V) || exact M.
  Qed.

  Lemma ren_send g m : mine g -> m_service m <> 0 ->
    mgr_send (ren_mgr g) (ren_msg m) = done (mgr_send g m) /\ mine (fst (mgr_send g m)).
  Proof.
    intros M V. unfold mgr_send.
    assert (E1 : m_session (ren_msg m) = m_session m) by (unfold OpaqueSpec.ren_msg; destruct (m_service m =? 0); reflexivity).
    assert (E2 : m_payload (ren_msg m) = own (m_session m) (m_payload m)) by (unfold OpaqueSpec.ren_msg; destruct (N.eqb_spec (m_service m) 0); [contradiction|reflexivity]).
    rewrite E1, E2, ren_find. destruct (find_sess g (m_session m)) as [s|] eqn:F; cbn [option_map]; [|exact (hup_step g (m_session m) true M)].
    exact (one_step g (m_session m) s (EPush (m_payload m)) M F).
  Qed.

  Lemma ren_closing g sid : mine g -> mgr_close (ren_mgr g) sid = done (mgr_close g sid) /\ mine (fst (mgr_close g sid)).
  Proof.
    intros M. unfold mgr_close. rewrite ren_find. destruct (find_sess g sid) as [s|] eqn:F; cbn [option_map]; [|split; [reflexivity|exact M]].
    cbn [sess_step]. split; [|apply mine_del; exact M]. unfold done. cbn [fst snd map OpaqueSpec.ren_mobs]. rewrite <- ren_del. reflexivity.
  Qed.
  Lemma ren_data_ack g sid len : mine g -> mgr_data_ack (ren_mgr g) sid len = done (mgr_data_ack g sid len) /\ mine (fst (mgr_data_ack g sid len)).
  Proof.
    intros M. unfold mgr_data_ack. rewrite ren_find. destruct (find_sess g sid) as [s|] eqn:F; cbn [option_map]; [|split; [reflexivity|exact M]].
    exact (one_step g sid s (EDataAck len) M F).
  Qed.
  Lemma ren_tr g sid t : mine g ->
    mgr_step (ren_mgr g) (MTransport sid (ren_tev sid t)) = done (mgr_step g (MTransport sid t)) /\ mine (fst (mgr_step g (MTransport sid t))).
  Proof.
    intros M. cbn [mgr_step]. rewrite ren_find. destruct (find_sess g sid) as [s|] eqn:F; cbn [option_map]; [|split; [reflexivity|exact M]].
    assert (E : sev_of (ren_tev sid t) = ren_sev sid (sev_of t)) by (destruct t; reflexivity). rewrite E.
    exact (one_step g sid s (sev_of t) M F).
  Qed.

  Lemma ren_loop n : forall g, mine g -> forall r g' o, poll_loop n g = (r, g', o) ->
    poll_loop n (ren_mgr g) = (r, ren_mgr g', map ren_mobs o) /\ mine g'.
  Proof.
    induction n as [|n IH]; intros g M r g' o; cbn [poll_loop].
    - intros [= <- <- <-]. split; [reflexivity|exact M].
    - cbn [ren_mgr g_order]. destruct (g_order g) as [|sid rest]; [apply (IH g M)|].
      change (set_order (ren_mgr g) rest) with (ren_mgr (set_order g rest)).
      assert (M0 : mine (set_order g rest)) by (apply (mine_same g); [reflexivity|exact M]).
      change (g_factory (ren_mgr (set_order g rest))) with (g_factory (set_order g rest)).
      set (g0 := set_order g rest) in *. clearbody g0. clear M g.
      rewrite ren_find. destruct (find_sess g0 sid) as [s|] eqn:F; cbn [option_map]; [|apply (IH g0 M0)].
      destruct (M0 sid s F) as [K V]. pose proof (kept s (ETake (g_factory g0))) as [KA KB]. cbn [sess_step] in KA, KB.
      destruct (sess_take (g_factory g0) s) as [[[t s'] f'] os] eqn:T. cbn [fst] in KA, KB.
      rewrite (ren_take f _ s V _ _ _ _ T), K.
      change (set_factory (ren_mgr g0) f') with (ren_mgr (set_factory g0 f')).
      assert (M1 : mine (set_factory g0 f')) by (apply (mine_same g0); [reflexivity|exact M0]).
      set (g1 := set_factory g0 f') in *. clearbody g1.
      assert (M2 : mine (set_order (set_sess g1 sid s') (g_order g1 ++ [sid]))).
      { apply (mine_same (set_sess g1 sid s')); [reflexivity|]. apply mine_set; [congruence|congruence|exact M1]. }
      assert (E2 : set_order (set_sess (ren_mgr g1) sid (ren_sess s')) (g_order (ren_mgr g1) ++ [sid]) = ren_mgr (set_order (set_sess g1 sid s') (g_order g1 ++ [sid]))).
      { rewrite ren_set. reflexivity. }
      assert (HP : forall code, mine (snd (create_hup (set_sessions g1 (aremove sid (g_sessions g1))) sid code))).
      { intros code. apply (mine_same (set_sessions g1 (aremove sid (g_sessions g1)))); [intros k; apply hup_find|]. apply mine_del. exact M1. }
      destruct t as [m| | |]; cbn [OpaquePf.ren_taken].
      + intros [= <- <- <-]. rewrite E2. split; [reflexivity|exact M2].
      + cbv zeta. rewrite ren_del, ren_hup. pose proof (hup_msg (set_sessions g1 (aremove sid (g_sessions g1))) sid EC_CONNECTION_ERROR) as HM.
        specialize (HP EC_CONNECTION_ERROR). destruct (create_hup _ sid EC_CONNECTION_ERROR) as [h g3]. cbn [fst snd] in *. intros [= <- <- <-].
        split; [|exact HP]. cbn [map OpaqueSpec.ren_mobs]. now rewrite HM.
      + cbv zeta. rewrite ren_del, ren_hup. pose proof (hup_msg (set_sessions g1 (aremove sid (g_sessions g1))) sid EC_NO_ERROR) as HM.
        specialize (HP EC_NO_ERROR). destruct (create_hup _ sid EC_NO_ERROR) as [h g3]. cbn [fst snd] in *. intros [= <- <- <-].
        split; [|exact HP]. cbn [map OpaqueSpec.ren_mobs]. now rewrite HM.
      + cbv zeta. rewrite E2. destruct (poll_loop n (set_order (set_sess g1 sid s') (g_order g1 ++ [sid]))) as [[r3 g3] o3] eqn:E.
        destruct (IH _ M2 _ _ _ E) as [R M3]. rewrite R. intros [= <- <- <-]. split; [reflexivity|exact M3].
  Qed.

  Lemma ren_poll g : mine g -> mgr_poll (ren_mgr g) = done (mgr_poll g) /\ mine (fst (mgr_poll g)).
  Proof.
    intros M. unfold mgr_poll. change (g_queue (ren_mgr g)) with (map ren_msg (g_queue g)). destruct (g_queue g) as [|m q] eqn:Q; cbn [map].
    - change (g_order (ren_mgr g)) with (g_order g). destruct (poll_loop (length (g_order g)) g) as [[r g1] o] eqn:E.
      destruct (ren_loop _ g M _ _ _ E) as [R M1]. rewrite R. destruct r; (split; [reflexivity|]); apply (mine_same g1); auto.
    - split; [reflexivity|]. apply (mine_same g); auto.
  Qed.

  (** The context of the connection *)
  Definition ren_ctx (c : ctx) : ctx := Client.set_mgr c (ren_mgr (c_mgr c)).
  Definition okc (c : ctx) : Prop := mine (c_mgr c) /\ Forall (fun m => m_service m = 0) (c_messages c).
  Definition ren_polled (p : polled) : polled := match p with PReady m => PReady (ren_msg m) | _ => p end.
  Definition ren3 (r : option ekind * ctx * list cobs) : option ekind * ctx * list cobs := (fst (fst r), ren_ctx (snd (fst r)), map ren_cobs (snd r)).
  Definition ren2 (r : ctx * list cobs) : ctx * list cobs := (ren_ctx (fst r), map ren_cobs (snd r)).
  Definition renp (r : polled * ctx * list cobs) : polled * ctx * list cobs := (ren_polled (fst (fst r)), ren_ctx (snd (fst r)), map ren_cobs (snd r)).

  Lemma ren_next c : c_next_id (ren_ctx c) = (fst (c_next_id c), ren_ctx (snd (c_next_id c))) /\ (okc c -> okc (snd (c_next_id c))).
  Proof.
    unfold c_next_id. cbn [ren_ctx Client.set_mgr c_mgr ren_mgr g_factory]. destruct (next_id (g_factory (c_mgr c))) as [id f']. cbn [fst snd].
    split; [reflexivity|]. intros [A B]. split; [apply (mine_same (c_mgr c)); [reflexivity|exact A]|exact B].
  Qed.
  Lemma ren_control t c m : send_control t (ren_ctx c) m = ren2 (send_control t c m) /\ (okc c -> okc (fst (send_control t c m))).
  Proof.
    unfold send_control. cbv zeta. cbn [ren_ctx Client.set_mgr c_messages set_messages c_task].
    destruct (c_task c); (split; [reflexivity|]); intros [A B]; (split; [exact A|]); cbn; apply Forall_app; (split; [exact B|repeat constructor]).
  Qed.
  Lemma ren_unconfirmed t c m : send_unconfirmed t (ren_ctx c) m = ren2 (send_unconfirmed t c m) /\ (okc c -> okc (fst (send_unconfirmed t c m))).
  Proof.
    unfold send_unconfirmed. destruct (ren_control t (set_acks c (c_acks c ++ [(t, cm_id m)])) m) as [A B].
    split; [exact A|]. intros K. apply B. exact K.
  Qed.
  Lemma ren_ping t c : send_ping t (ren_ctx c) = ren2 (send_ping t c) /\ (okc c -> okc (fst (send_ping t c))).
  Proof.
    unfold send_ping. destruct (ren_next c) as [A B]. rewrite A. destruct (c_next_id c) as [id c1]. cbn [fst snd] in *.
    destruct (ren_unconfirmed t c1 (mk_ping id)) as [C D]. rewrite C. destruct (send_unconfirmed t c1 (mk_ping id)) as [c2 o]. cbn [fst snd ren2] in *.
    split; [reflexivity|]. intros K. exact (D (B K)).
  Qed.
  Lemma ren_update t c v1 v2 : send_update t (ren_ctx c) v1 v2 = ren2 (send_update t c v1 v2) /\ (okc c -> okc (fst (send_update t c v1 v2))).
  Proof.
    unfold send_update. cbv zeta. destruct (ren_next c) as [A B]. rewrite A. destruct (c_next_id c) as [id c1]. cbn [fst snd] in *.
    destruct (ren_control t (set_version c1 (v_version v2)) (mk_update id (table_of_services (v_visible v1)))) as [C D].
    split; [exact C|]. intros K. apply D. exact (B K).
  Qed.
  Lemma ren_time t c v0 v1 v2 : time_event t (ren_ctx c) v0 v1 v2 = ren3 (time_event t c v0 v1 v2) /\ (okc c -> okc (snd (fst (time_event t c v0 v1 v2)))).
  Proof.
    unfold time_event. change (c_established (ren_ctx c)) with (c_established c). change (c_last_ping (ren_ctx c)) with (c_last_ping c).
    destruct (c_established c); [|split; [reflexivity|auto]].
    assert (P : (if (PING_PERIOD <=? t - c_last_ping c)%Z then send_ping t (ren_ctx c) else (ren_ctx c, [])) =
                ren2 (if (PING_PERIOD <=? t - c_last_ping c)%Z then send_ping t c else (c, [])) /\
                (okc c -> okc (fst (if (PING_PERIOD <=? t - c_last_ping c)%Z then send_ping t c else (c, []))))).
    { destruct (_ <=? _)%Z; [apply ren_ping|split; [reflexivity|auto]]. }
    destruct P as [P1 P2]. rewrite P1. destruct (if (PING_PERIOD <=? t - c_last_ping c)%Z then send_ping t c else (c, [])) as [c1 o1].
    cbn [fst snd ren2] in *. change (c_last_check (ren_ctx c1)) with (c_last_check c1).
    assert (Q : check_for_updates t (ren_ctx c1) v0 v1 v2 = ren2 (check_for_updates t c1 v0 v1 v2) /\ (okc c1 -> okc (fst (check_for_updates t c1 v0 v1 v2)))).
    { unfold check_for_updates. change (c_version (ren_ctx c1)) with (c_version c1). destruct (c_version c1 =? v_version v0); [split; [reflexivity|auto]|].
      destruct (ren_update t c1 v1 v2) as [A B]. rewrite A. destruct (send_update t c1 v1 v2) as [c2 o2]. cbn [fst snd ren2] in *. split; [reflexivity|exact B]. }
    destruct Q as [Q1 Q2]. change (c_last_check (Client.set_mgr c1 (ren_mgr (c_mgr c1)))) with (c_last_check c1).
    destruct (UPDATE_CHECK_PERIOD <=? t - c_last_check c1)%Z.
    - rewrite Q1. destruct (check_for_updates t c1 v0 v1 v2) as [c2 o2]. cbn [fst snd ren2] in *. split; [|auto].
      unfold ren3. cbn [fst snd]. rewrite map_app. reflexivity.
    - split; [|auto]. unfold ren3. cbn [fst snd]. rewrite !app_nil_r. reflexivity.
  Qed.

  Lemma ren_lift c r : lift_mgr (ren_ctx c) (done r) = ren2 (lift_mgr c r).
  Proof. destruct r as [g o]. unfold lift_mgr, done, ren2. cbn [fst snd]. rewrite !map_map. reflexivity. Qed.
  Lemma ok_lift c r : okc c -> mine (fst r) -> okc (fst (lift_mgr c r)).
  Proof. destruct r as [g o]. intros [_ B] A. split; assumption. Qed.

  Lemma ren_established (b : bool) c r r' : r' = ren2 r ->
    (if b then (None, fst r', snd r') else (Some OtherError, ren_ctx c, [])) = ren3 (if b then (None, fst r, snd r) else (Some OtherError, c, [])).
  Proof. intros ->. destruct b; reflexivity. Qed.

  Lemma ren_ack e c id err : process_ack e (ren_ctx c) id err = (fst (process_ack e c id err), ren_ctx (snd (process_ack e c id err))) /\
    (okc c -> okc (snd (process_ack e c id err))).
  Proof.
    unfold process_ack. change (c_acks (ren_ctx c)) with (c_acks c). destruct (c_acks c) as [|[t x] rest]; [split; [reflexivity|auto]|].
    cbv zeta. destruct (id =? x); [|split; [reflexivity|auto]]. change (c_established (ren_ctx c)) with (c_established c).
    destruct (c_established c); [split; [reflexivity|auto]|]. unfold handshake_ack. repeat destruct (_ =? _); try (split; [reflexivity|auto]; fail).
    cbv zeta. destruct (e_diagnostic e); split; try reflexivity; auto.
  Qed.

  Lemma ren_process_control t e c m : okc c -> plain_table (e_table e) ->
    process_control t e (ren_ctx c) m = ren3 (process_control t e c m) /\ okc (snd (fst (process_control t e c m))).
  Proof.
    intros K PT. unfold process_control. cbv zeta. change (c_established (ren_ctx c)) with (c_established c).
    assert (EST : forall r r', r' = ren2 r -> okc (fst r) ->
      (if c_established c then (None, fst r', snd r') else (Some OtherError, ren_ctx c, [])) = ren3 (if c_established c then (None, fst r, snd r) else (Some OtherError, c, [])) /\
      okc (snd (fst (if c_established c then (None, fst r, snd r) else (Some OtherError, c, []))))).
    { intros r r' E O. split; [apply ren_established; exact E|]. destruct (c_established c); [exact O|exact K]. }
    change (c_mgr (ren_ctx c)) with (ren_mgr (c_mgr c)).
    assert (BAD : forall k : option ekind, (k, ren_ctx c, []) = ren3 (k, c, []) /\ okc c) by (split; [reflexivity|exact K]).
    destruct (message_type (cm_type m)); try apply BAD.
    - destruct (cm_body m) as [|err|svc sid|sid len|sid code|target|a b d|a b d e0 g h j|j|a h j]; try apply BAD. destruct (ren_ack e c (cm_id m) err) as [A B]. rewrite A. destruct (process_ack e c (cm_id m) err) as [r c1].
      split; [reflexivity|exact (B K)].
    - apply EST; [apply ren_control|]. now apply ren_control.
    - destruct (cm_body m) as [|err|svc sid|sid len|sid code|target|a b d|a b d e0 g h j|j|a h j]; try apply BAD. apply EST; [unfold set_redirect, ren2; cbn; destruct (c_task c); reflexivity|]. cbn. destruct (c_task c); exact K.
    - destruct (cm_body m) as [|err|svc sid|sid len|sid code|target|a b d|a b d e0 g h j|j|a h j]; try apply BAD. destruct (ren_closing (c_mgr c) sid (proj1 K)) as [A B].
      apply EST; [rewrite A; apply ren_lift|now apply ok_lift].
    - apply EST; [reflexivity|exact K].
    - apply EST; [reflexivity|exact K].
    - destruct (ren_next c) as [A B]. rewrite A. destruct (c_next_id c) as [id c1]. cbn [fst snd] in *.
      assert (L : nlen (g_sessions (ren_mgr (c_mgr c))) = nlen (g_sessions (c_mgr c))) by (unfold nlen; cbn [ren_mgr g_sessions]; unfold ren_all; now rewrite map_length).
      rewrite L. apply EST; [apply ren_control|]. apply ren_control. exact (B K).
    - destruct (ren_next c) as [A B]. rewrite A. destruct (c_next_id c) as [id c1]. cbn [fst snd] in *.
      apply EST; [apply ren_control|]. apply ren_control. exact (B K).
    - destruct (cm_body m) as [|err|svc sid|sid len|sid code|target|a b d|a b d e0 g h j|j|a h j]; try apply BAD. destruct (ren_data_ack (c_mgr c) sid len (proj1 K)) as [A B].
      apply EST; [rewrite A; apply ren_lift|now apply ok_lift].
    - destruct (cm_body m) as [|err|svc sid|sid len|sid code|target|a b d|a b d e0 g h j|j|a h j]; try apply BAD. destruct (ren_connect (c_mgr c) (v_get (e_table e)) svc sid (proj1 K) PT) as [A B].
      apply EST; [rewrite A; apply ren_lift|now apply ok_lift].
  Qed.

  Lemma ren_message t e c m : okc c -> plain_table (e_table e) ->
    process_message t e (ren_ctx c) (ren_msg m) = ren3 (process_message t e c m) /\ okc (snd (fst (process_message t e c m))).
  Proof.
    intros K PT. unfold process_message. change (is_closed (ren_ctx c)) with (is_closed c). destruct (is_closed c); [split; [reflexivity|exact K]|].
    assert (S : m_service (ren_msg m) = m_service m) by (unfold OpaqueSpec.ren_msg; destruct (m_service m =? 0); reflexivity). rewrite S.
    destruct (N.eqb_spec (m_service m) 0) as [Z|NZ].
    - assert (E : ren_msg m = m) by (unfold OpaqueSpec.ren_msg; rewrite Z; reflexivity). rewrite E.
      destruct (cmsg_from_bytes (m_payload m)) as [cm| |].
      + destruct (ren_process_control t e c cm K PT) as [A B]. rewrite A. destruct (process_control t e c cm) as [[r c1] o]. cbn [fst snd ren3] in *.
        split; [|exact B]. unfold ren3. cbn [fst snd map OpaqueSpec.ren_cobs]. now rewrite E.
      + split; [|exact K]. unfold ren3. cbn [fst snd map OpaqueSpec.ren_cobs]. now rewrite E.
      + split; [|exact K]. unfold ren3. cbn [fst snd map OpaqueSpec.ren_cobs]. now rewrite E.
    - change (c_established (ren_ctx c)) with (c_established c). destruct (c_established c); [|split; [reflexivity|exact K]].
      destruct (ren_send (c_mgr c) m (proj1 K) NZ) as [A B]. change (c_mgr (ren_ctx c)) with (ren_mgr (c_mgr c)). rewrite A, ren_lift.
      pose proof (ok_lift c _ K B) as O. destruct (lift_mgr c (mgr_send (c_mgr c) m)) as [c1 o]. cbn [fst snd ren2] in *.
      split; [reflexivity|exact O].
  Qed.

  Lemma polled_ren o : polled_msg (map ren_mobs o) = option_map ren_msg (polled_msg o).
  Proof. induction o as [|[] o IH]; cbn; try reflexivity; exact IH. Qed.
  Lemma ren_ctx_poll c : okc c -> ctx_poll (ren_ctx c) = renp (ctx_poll c) /\ okc (snd (fst (ctx_poll c))).
  Proof.
    intros K. unfold ctx_poll. change (is_closed (ren_ctx c)) with (is_closed c). destruct (is_closed c); [split; [reflexivity|exact K]|].
    change (c_messages (ren_ctx c)) with (c_messages c). destruct K as [A B]. destruct (c_messages c) as [|m q] eqn:Q.
    - change (c_mgr (ren_ctx c)) with (ren_mgr (c_mgr c)). destruct (ren_poll (c_mgr c) A) as [R M1]. rewrite R.
      destruct (mgr_poll (c_mgr c)) as [g o]. cbn [fst snd done] in *. rewrite polled_ren.
      assert (O : okc (Client.set_mgr c g)) by (split; [exact M1|cbn; rewrite Q; constructor]).
      destruct (polled_msg o) as [m|]; cbn [option_map]; (split; [unfold renp; cbn [fst snd]; rewrite !map_map; reflexivity|exact O]).
    - pose proof (Forall_inv B) as Z. cbn in Z. split; [|split; [exact A|exact (Forall_inv_tail B)]].
      unfold renp. cbn [fst snd ren_polled]. assert (E : ren_msg m = m) by (unfold OpaqueSpec.ren_msg; rewrite Z; reflexivity). now rewrite E.
  Qed.

  Lemma ren_feed c i : okc c -> plain_item i -> feed_item (ren_ctx c) (ren_item i) = ren3 (feed_item c i) /\ okc (snd (fst (feed_item c i))).
  Proof.
    intros K P. destruct i as [t e m| |]; cbn [feed_item OpaqueSpec.ren_item].
    - apply ren_message; assumption.
    - split; [reflexivity|exact K].
    - split; [reflexivity|exact K].
  Qed.

  Lemma ren_client_loop items : forall c, okc c -> Forall plain_item items ->
    client_loop (ren_ctx c) (map ren_item items) = renp (client_loop c items) /\ okc (snd (fst (client_loop c items))).
  Proof.
    induction items as [|i items IH]; intros c K P; cbn [client_loop map].
    - destruct (ren_ctx_poll c K) as [A B]. rewrite A. destruct (ctx_poll c) as [[p c1] o1]. cbn [fst snd renp] in *.
      destruct p; (split; [reflexivity|exact B]).
    - destruct (ren_ctx_poll c K) as [A B]. rewrite A. destruct (ctx_poll c) as [[p c1] o1]. cbn [fst snd renp] in *.
      destruct p; cbn [ren_polled]; try (split; [reflexivity|exact B]).
      destruct (ren_feed c1 i B (Forall_inv P)) as [C D]. rewrite C. destruct (feed_item c1 i) as [[r c2] o2]. cbn [fst snd ren3] in *.
      destruct r as [k|]; [split; [unfold renp; cbn [fst snd]; rewrite map_app; reflexivity|exact D]|].
      destruct (IH c2 D (Forall_inv_tail P)) as [E F]. rewrite E. destruct (client_loop c2 items) as [[p3 c3] o3]. cbn [fst snd renp] in *.
      split; [unfold renp; cbn [fst snd]; rewrite !map_app; reflexivity|exact F].
  Qed.
  Lemma ren_client_poll c items : okc c -> Forall plain_item items ->
    client_poll (ren_ctx c) (map ren_item items) = renp (client_poll c items) /\ okc (snd (fst (client_poll c items))).
  Proof.
    intros K P. unfold client_poll. destruct items as [|i items]; cbn [map]; [exact (ren_client_loop [] c K P)|].
    destruct (ren_feed c i K (Forall_inv P)) as [C D]. rewrite C. destruct (feed_item c i) as [[r c2] o2]. cbn [fst snd ren3] in *.
    destruct r as [k|]; [split; [reflexivity|exact D]|].
    destruct (ren_client_loop items c2 D (Forall_inv_tail P)) as [E F]. rewrite E. destruct (client_loop c2 items) as [[p3 c3] o3]. cbn [fst snd renp] in *.
    split; [unfold renp; cbn [fst snd]; rewrite !map_app; reflexivity|exact F].
  Qed.

  Definition ren_conn (k : conn) : conn := {| k_ctx := ren_ctx (k_ctx k); k_result := k_result k |}.
  Definition renk (r : conn * list cobs) : conn * list cobs := (ren_conn (fst r), map ren_cobs (snd r)).
  Lemma ren_conn_step k e : okc (k_ctx k) -> plain_event e ->
    conn_step (ren_conn k) (ren_kev e) = renk (conn_step k e) /\ okc (k_ctx (fst (conn_step k e))).
  Proof.
    intros K P. unfold conn_step. cbn [ren_conn k_result k_ctx]. destruct (k_result k) eqn:R.
    - split; [|exact K]. unfold renk, ren_conn. cbn [fst snd map]. rewrite R. reflexivity.
    - destruct e as [items|t v0 v1 v2| |sid te]; cbn [OpaqueSpec.ren_kev].
      + destruct (ren_client_poll (k_ctx k) items K P) as [A B]. rewrite A. destruct (client_poll (k_ctx k) items) as [[p c1] o]. cbn [fst snd renp] in *.
        destruct p; cbn [ren_polled]; (split; [|exact B]); unfold renk; cbn [fst snd]; rewrite ?map_app; reflexivity.
      + change (is_closed (ren_ctx (k_ctx k))) with (is_closed (k_ctx k)). destruct (is_closed (k_ctx k)); [split; [reflexivity|exact K]|].
        destruct (ren_time t (k_ctx k) v0 v1 v2) as [A B]. rewrite A. destruct (time_event t (k_ctx k) v0 v1 v2) as [[r c1] o]. cbn [fst snd ren3] in *.
        split; [reflexivity|exact (B K)].
      + split; [reflexivity|exact K].
      + destruct (ren_tr (c_mgr (k_ctx k)) sid te (proj1 K)) as [A B]. change (c_mgr (ren_ctx (k_ctx k))) with (ren_mgr (c_mgr (k_ctx k))). rewrite A, ren_lift.
        pose proof (ok_lift (k_ctx k) _ K B) as O. destruct (lift_mgr (k_ctx k) (mgr_step (c_mgr (k_ctx k)) (MTransport sid te))) as [c1 o]. cbn [fst snd ren2] in *.
        split; [reflexivity|exact O].
  Qed.
  Lemma ren_run es : forall k, okc (k_ctx k) -> Forall plain_event es -> conn_run (ren_conn k) (map ren_kev es) = renk (conn_run k es).
  Proof.
    induction es as [|e es IH]; intros k K P; cbn [conn_run map]; [reflexivity|].
    destruct (ren_conn_step k e K (Forall_inv P)) as [A B]. rewrite A. destruct (conn_step k e) as [k1 o1]. cbn [fst snd renk] in *.
    rewrite (IH k1 B (Forall_inv_tail P)). destruct (conn_run k1 es) as [k2 o2]. unfold renk. cbn [fst snd]. now rewrite map_app.
  Qed.

  Lemma start t i v1 v2 : okc (fst (ctx_new t i v1 v2)) /\ ren_ctx (fst (ctx_new t i v1 v2)) = fst (ctx_new t i v1 v2) /\ map ren_cobs (snd (ctx_new t i v1 v2)) = snd (ctx_new t i v1 v2).
  Proof.
    unfold ctx_new. cbv zeta. set (c := {| c_mgr := _ |}).
    assert (K : okc c) by (split; [intros k s E; discriminate E|constructor]).
    assert (R : ren_ctx c = c) by reflexivity.
    destruct (ren_next c) as [A B]. rewrite R in A. destruct (c_next_id c) as [id c1]. cbn [fst snd] in *. specialize (B K). apply (f_equal snd) in A. cbn [snd] in A.
    destruct (mk_register _ _ _ _ _ _ _ _) as [m| |].
    - destruct (ren_unconfirmed t (set_version c1 (v_version v2)) m) as [C D].
      assert (R1 : ren_ctx (set_version c1 (v_version v2)) = set_version c1 (v_version v2)).
      { exact (eq_sym (f_equal (fun x => set_version x (v_version v2)) A)). }
      rewrite R1 in C. destruct (send_unconfirmed t (set_version c1 (v_version v2)) m) as [c2 o]. unfold ren2 in C. cbn [fst snd] in *. pose proof (f_equal fst C) as C1. pose proof (f_equal snd C) as C2. cbn [fst snd] in C1, C2.
      split; [exact (D B)|]. split; symmetry; assumption.
    - split; [exact B|]. split; [|reflexivity]. exact (eq_sym (f_equal set_closed A)).
    - split; [exact B|]. split; [|reflexivity]. exact (eq_sym (f_equal set_closed A)).
  Qed.

  Lemma opaque_data t i v1 v2 es k h : connection t i v1 v2 es = (k, h) -> Forall plain_event es ->
    exists k', connection t i v1 v2 (map ren_kev es) = (k', map ren_cobs h) /\ k_result k' = k_result k.
  Proof.
    unfold connection, conn_new. destruct (start t i v1 v2) as (K & A & B). destruct (ctx_new t i v1 v2) as [c o]. cbn [fst snd] in *.
    intros E P. pose proof (ren_run es {| k_ctx := c; k_result := None |} K P) as R. unfold ren_conn in R at 1. cbn [k_ctx k_result] in R. rewrite A in R. rewrite R.
    destruct (conn_run {| k_ctx := c; k_result := None |} es) as [k1 o1]. injection E as <- <-. exists (ren_conn k1). split; [|reflexivity].
    unfold renk. cbn [fst snd]. rewrite map_app, B. reflexivity.
  Qed.

  Lemma ren_mgr_step g e : mine g -> plain_mev e -> mgr_step (ren_mgr g) (ren_mev f e) = done (mgr_step g e) /\ mine (fst (mgr_step g e)).
  Proof.
    intros M P. destruct e as [get svc sid|m|sid|sid len| |sid te|fa]; cbn [OpaqueSpec.ren_mev].
    - apply ren_connect; [exact M|exact P].
    - apply ren_send; [exact M|exact P].
    - apply ren_closing; exact M.
    - apply ren_data_ack; exact M.
    - apply ren_poll; exact M.
    - apply ren_tr; exact M.
    - split; [reflexivity|]. apply (mine_same g); [reflexivity|exact M].
  Qed.
  Lemma ren_log aprint g e err : mine g -> plain_mev e -> mgr_log aprint (ren_mgr g) (ren_mev f e) err = mgr_log aprint g e err.
  Proof.
    intros M P. destruct e as [get svc sid|m|sid|sid len| |sid te|fa]; cbn [OpaqueSpec.ren_mev mgr_log]; try reflexivity.
    - assert (E : connect_reason (ren_mgr g) get svc sid = connect_reason g get svc sid) by (unfold connect_reason; rewrite ren_find; destruct (find_sess g sid); reflexivity).
      now rewrite E.
    - assert (E1 : m_session (ren_msg m) = m_session m) by (unfold OpaqueSpec.ren_msg; destruct (m_service m =? 0); reflexivity).
      rewrite E1, ren_find. destruct (find_sess g (m_session m)); reflexivity.
    - rewrite ren_find. destruct (find_sess g sid); reflexivity.
    - destruct (ren_poll g M) as [R _]. rewrite R. unfold done. cbn [snd]. rewrite map_map. f_equal. apply map_ext. intros []; try reflexivity.
  Qed.
  Lemma ren_journal aprint es : forall g, mine g -> Forall plain_mev (map fst es) ->
    mgr_journal aprint (ren_mgr g) (map (fun p => (ren_mev f (fst p), snd p)) es) = mgr_journal aprint g es.
  Proof.
    induction es as [|[e err] es IH]; intros g M P; cbn [map mgr_journal fst snd]; [reflexivity|].
    rewrite (ren_log aprint g e err M (Forall_inv P)). destruct (ren_mgr_step g e M (Forall_inv P)) as [A B]. rewrite A. unfold done at 1. cbn [fst].
    now rewrite (IH _ B (Forall_inv_tail P)).
  Qed.
  Lemma opaque_journal aprint W gw fa es : Forall plain_mev (map fst es) ->
    mgr_journal aprint (mgr_new W gw fa) (map (fun p => (ren_mev f (fst p), snd p)) es) = mgr_journal aprint (mgr_new W gw fa) es.
  Proof. intros P. apply (ren_journal aprint es (mgr_new W gw fa)); [intros k s E; discriminate E|exact P]. Qed.

  (** Sessions whose data stay *)
  Variable n : N.
  Hypothesis stays : forall b, f n b = b.
  Lemma own_stays sid b : sid mod 2 ^ 24 = n -> own sid b = b.
  Proof. intros E. unfold OpaqueSpec.own. rewrite E. rewrite (map_ext _ (fun x => x) stays). apply map_id. Qed.
  Lemma msg_stays m : about_msg n m = true -> ren_msg m = m.
  Proof.
    unfold about_msg, OpaqueSpec.ren_msg. destruct (m_service m =? 0); [discriminate|]. cbn [negb andb]. intros E. apply N.eqb_eq in E.
    rewrite (own_stays _ _ E). destruct m; reflexivity.
  Qed.
  Lemma about_ren_msg m : about_msg n (ren_msg m) = about_msg n m.
  Proof. unfold about_msg, OpaqueSpec.ren_msg. destruct (m_service m =? 0) eqn:E; cbn; rewrite E; reflexivity. Qed.
  Lemma sev_stays sid e : sid mod 2 ^ 24 = n -> ren_sev sid e = e.
  Proof. intros E. destruct e as [| | | | | |[]| |]; cbn -[OpaqueSpec.own]; rewrite ?(own_stays _ _ E); reflexivity. Qed.
  Lemma cobs_stays o : about n o = true -> ren_cobs o = o.
  Proof.
    destruct o as [e m| | |[]| |m]; cbn [about OpaqueSpec.ren_cobs OpaqueSpec.ren_mobs]; intros E; try discriminate; try (rewrite (msg_stays _ E); reflexivity).
    apply N.eqb_eq in E. rewrite (sev_stays _ _ E). f_equal. f_equal. rewrite (map_ext _ (fun x => x)); [apply map_id|].
    intros x. destruct x as [| | |m|]; cbn -[OpaqueSpec.own]; rewrite ?(own_stays _ _ E); try reflexivity. destruct m; reflexivity.
  Qed.
  Lemma about_ren o : about n (ren_cobs o) = about n o.
  Proof. destruct o as [e m| | |[]| |m]; cbn [about OpaqueSpec.ren_cobs OpaqueSpec.ren_mobs]; try reflexivity; apply about_ren_msg. Qed.
  Lemma history_stays h : filter (about n) (map ren_cobs h) = filter (about n) h.
  Proof.
    induction h as [|o h IH]; [reflexivity|]. cbn [map filter]. rewrite about_ren, IH.
    destruct (about n o) eqn:E; [|reflexivity]. now rewrite (cobs_stays o E).
  Qed.
End Renaming.

Lemma opaque_apart f n t i v1 v2 es : (forall b, f n b = b) -> Forall plain_event es ->
  filter (about n) (snd (connection t i v1 v2 (map (ren_kev f) es))) = filter (about n) (snd (connection t i v1 v2 es)).
Proof.
  intros S P. destruct (connection t i v1 v2 es) as [k h] eqn:E. destruct (opaque_data f t i v1 v2 es k h E P) as (k' & A & _).
  rewrite A. cbn [snd]. exact (history_stays f n S h).
Qed.

Lemma tables_plain t : consistent t -> plain_table (view_of t).
Proof.
  intros K s. cbn [view_of v_get]. unfold tbl_get. destruct (k_control t K) as (e & -> & -> & _ & _). destruct (_ || _); [|discriminate].
  intros [= <-]. reflexivity.
Qed.
