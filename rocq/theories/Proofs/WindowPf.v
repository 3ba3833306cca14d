(** Proof of C157. *)
From Coq Require Import NArith ZArith List Bool Lia ZifyBool ZifyNat ZifyN.
From Verif.Model Require Import Bytes Frame Service Control Alist Session Manager Client.
From Verif.Spec Require Import ManagerSpec ClientSpec WireSpec SessionSpec FairSpec FlowSpec MemorySpec WindowSpec.
From Verif.Proofs Require Import AlistFacts ManagerProofs ManagerPropsPf ClientInv ClientPropsPf ClientPropsPf2 SessionProofs ProgressPf ProgressLift FairPf FlowPf MemoryPf.
From Verif.Proofs Require WireFinal.
Import ListNotations.
Local Open Scope N_scope.

(** ** DATA_ACK messages *)
Lemma type_12 code : message_type code = DATA_ACK <-> code = 12.
Proof.
  split; [|intros ->; reflexivity]. intros H. unfold message_type in H.
  repeat match type of H with context [match ?x with _ => _ end] => destruct x; try discriminate H end. reflexivity.
Qed.

Lemma ack_read m cm : m_service m = 0 -> cmsg_from_bytes (m_payload m) = ROk cm ->
  ack_in m = match message_type (cm_type cm), cm_body cm with DATA_ACK, BDataAck s n => Some (s, n) | _, _ => None end.
Proof.
  intros S H. unfold ack_in. rewrite S, N.eqb_refl. unfold cmsg_from_bytes in H.
  destruct (m_payload m) as [|x1 [|x2 [|y [|z r]]]]; try discriminate H.
  cbn [length Nat.ltb Nat.leb] in H. cbv zeta in H. unfold field in H. cbn [firstn skipn] in H.
  replace (of_be [y; z]) with (y * 256 + z) in H by reflexivity.
  destruct (decode_body (message_type (y * 256 + z)) r) as [body| |] eqn:D; [|discriminate|discriminate]. injection H as <-. cbn [cm_type cm_body].
  destruct (N.eq_dec (y * 256 + z) 12) as [E|E].
  - assert (y = 0 /\ z = 12) as [-> ->] by lia. rewrite !N.eqb_refl. cbn [andb]. change (message_type (0 * 256 + 12)) with DATA_ACK in *.
    cbn [decode_body] in D. unfold data_ack_from_bytes in D. destruct (Nat.eqb_spec (length r) 8) as [L|L]; cbn [negb lift_from] in D; [|discriminate].
    do 8 (destruct r as [|? r]; [discriminate L|]). destruct r; [|discriminate L]. injection D as <-. unfold field. cbn [firstn skipn]. reflexivity.
  - assert (T : message_type (y * 256 + z) <> DATA_ACK) by (rewrite type_12; exact E).
    assert (Z : (y =? 0) && (z =? 12) = false) by lia. rewrite Z.
    destruct (message_type (y * 256 + z)); try (exfalso; apply T; reflexivity); do 9 (destruct r as [|? r]; try reflexivity).
Qed.

(** ** Both counts agree *)
Definition granted_step (sid acc : N) (x : cobs) : N :=
  match x with
  | XMgr (OOpen s _ _ _) => if s =? sid then 0 else acc
  | XMgr (OSess s (EDataAck n) _) => if s =? sid then acc + n else acc
  | _ => acc
  end.
Definition tallied (sid : N) (c c' : ctx) (o : list cobs) : Prop :=
  forall A B, (find_sess (c_mgr c) sid <> None -> A = B) -> find_sess (c_mgr c') sid <> None ->
    fold_left (acknowledged_step sid) o A = fold_left (granted_step sid) o B.
Definition plain_obs (x : cobs) : Prop :=
  match x with
  | XMgr (OOpen _ _ _ _) | XMgr (OSess _ (EDataAck _) _) => False
  | XRecv _ m => ack_in m = None
  | _ => True
  end.

Lemma plain_fold sid o : Forall plain_obs o -> forall A B, fold_left (acknowledged_step sid) o A = A /\ fold_left (granted_step sid) o B = B.
Proof.
  induction 1 as [|x o X F IH]; intros A B; [split; reflexivity|]. cbn [fold_left].
  assert (acknowledged_step sid A x = A /\ granted_step sid B x = B) as [-> ->]; [|apply IH].
  destruct x as [| e m| |y| |]; try (split; reflexivity).
  - cbn [plain_obs] in X. cbn [acknowledged_step granted_step]. rewrite X. split; reflexivity.
  - destruct y as [s t mac a|s ev oo|s|m|w m]; try (split; reflexivity); [destruct X|]. destruct ev; try (split; reflexivity). destruct X.
Qed.
Lemma tallied_app sid c c1 c2 o1 o2 : tallied sid c c1 o1 -> tallied sid c1 c2 o2 -> tallied sid c c2 (o1 ++ o2).
Proof. intros H1 H2 A B E L. rewrite !fold_left_app. apply H2; [|exact L]. intros L1. apply H1; assumption. Qed.
Lemma tallied_plain sid c c' o : Forall plain_obs o -> gone sid (c_mgr c) (c_mgr c') -> tallied sid c c' o.
Proof.
  intros F G A B E L. destruct (plain_fold sid o F A B) as [-> ->]. apply E. intros N. apply L. apply G. exact N.
Qed.
Lemma gone_same sid g g' : g_sessions g' = g_sessions g -> gone sid g g'.
Proof. unfold gone, find_sess. intros ->. exact (fun x => x). Qed.
Lemma gone_set sid g k s s' : find_sess g k = Some s -> gone sid g (set_sess g k s').
Proof. intros F. unfold gone, find_sess in *. gsimp. rewrite alookup_insert. destruct (N.eqb_spec sid k) as [->|_]; [congruence|auto]. Qed.
Lemma gone_hup sid g k code m g' q : create_hup g k code = (m, g') -> gone sid g (wake_task (set_queue g' q)).
Proof. unfold create_hup. destruct (next_id _). intros [= _ <-]. apply gone_same. unfold wake_task. gsimp. destruct (g_task g); reflexivity. Qed.

Lemma loop_plain n : forall g, Forall plain_obs (map XMgr (snd (poll_loop n g))).
Proof.
  induction n as [|n IH]; intros g; cbn [poll_loop]; [constructor|]. destruct (g_order g) as [|x rest]; [apply IH|]. cbv zeta.
  destruct (find_sess (set_order g rest) x) as [s|]; [|apply IH]. destruct (sess_take _ s) as [[[t s'] f'] o].
  destruct t; try (destruct (create_hup _ _ _)); try (cbn [snd map]; repeat constructor; fail).
  specialize (IH (set_order (set_sess (set_factory (set_order g rest) f') x s') (g_order (set_factory (set_order g rest) f') ++ [x]))).
  destruct (poll_loop n _) as [[r g3] os]. cbn [snd map] in *. constructor; [exact I|exact IH].
Qed.

Lemma tallied_poll sid c p c' o : ctx_poll c = (p, c', o) -> tallied sid c c' o.
Proof.
  unfold ctx_poll. destruct (is_closed c); [intros [= _ <- <-]; apply tallied_plain; [constructor|now apply gone_same]|].
  destruct (c_messages c) as [|m q]; [|intros [= _ <- <-]; apply tallied_plain; [constructor|now apply gone_same]].
  destruct (mgr_poll (c_mgr c)) as [g og] eqn:E.
  assert (X : Forall plain_obs (map XMgr og) /\ gone sid (c_mgr c) g).
  { unfold mgr_poll in E. destruct (g_queue (c_mgr c)) as [|m q]; [|injection E as <- <-; split; [repeat constructor|now apply gone_same]].
    pose proof (poll_loop_follows sid (length (g_order (c_mgr c))) (c_mgr c)) as P. pose proof (loop_plain (length (g_order (c_mgr c))) (c_mgr c)) as L.
    destruct (poll_loop _ (c_mgr c)) as [[r g1] oo]. cbn [snd] in L. destruct P as [P _]. destruct r; injection E as <- <-; split; assumption. }
  cbv zeta. destruct (polled_msg og); intros [= _ <- <-]; apply tallied_plain; apply X.
Qed.

Lemma tallied_time sid t c v0 v1 v2 r c' o : time_event t c v0 v1 v2 = (r, c', o) -> tallied sid c c' o.
Proof.
  intros H. apply tallied_plain.
  - unfold time_event in H. match type of H with match ?x with _ => _ end = _ => destruct x as [c2 o2] eqn:X end. injection H as _ _ <-.
    destruct (c_established c); [|injection X as _ <-; constructor].
    match type of X with match ?x with _ => _ end = _ => destruct x as [c3 o3] eqn:Y end.
    match type of X with match ?x with _ => _ end = _ => destruct x as [c4 o4] eqn:Z end. injection X as _ <-. apply Forall_app. split.
    + destruct (PING_PERIOD <=? _)%Z; [|injection Y as _ <-; constructor]. unfold send_ping, send_unconfirmed, send_control in Y.
      destruct (c_next_id c). injection Y as _ <-. repeat constructor.
    + destruct (UPDATE_CHECK_PERIOD <=? _)%Z; [|injection Z as _ <-; constructor]. unfold check_for_updates, send_update, send_control in Z.
      destruct (c_version c3 =? v_version v0); [injection Z as _ <-; constructor|]. destruct (c_next_id c3). injection Z as _ <-. repeat constructor.
  - destruct (moves_time sid t c v0 v1 v2 r c' o H) as (mes & A & _). intros N.
    assert (Q : manager_history o = []).
    { clear - H. unfold time_event in H. match type of H with match ?x with _ => _ end = _ => destruct x as [c2 o2] eqn:X end. injection H as _ _ <-.
      destruct (c_established c); [|injection X as _ <-; reflexivity].
      match type of X with match ?x with _ => _ end = _ => destruct x as [c3 o3] eqn:Y end.
      match type of X with match ?x with _ => _ end = _ => destruct x as [c4 o4] eqn:Z end. injection X as _ <-. rewrite mhist_app.
      assert (manager_history o3 = []) as ->.
      { destruct (PING_PERIOD <=? _)%Z; [|injection Y as _ <-; reflexivity]. unfold send_ping, send_unconfirmed, send_control in Y.
        destruct (c_next_id c). injection Y as _ <-. reflexivity. }
      destruct (UPDATE_CHECK_PERIOD <=? _)%Z; [|injection Z as _ <-; reflexivity]. unfold check_for_updates, send_update, send_control in Z.
      destruct (c_version c3 =? v_version v0); [injection Z as _ <-; reflexivity|]. destruct (c_next_id c3). injection Z as _ <-. reflexivity. }
    rewrite Q in A. apply (proj1 (run_follows sid mes _ _ _ A ltac:(constructor))). exact N.
Qed.

Lemma tallied_control sid t e c m cm c' o : m_service m = 0 -> cmsg_from_bytes (m_payload m) = ROk cm ->
  process_control t e c cm = (None, c', o) -> tallied sid c c' (XRecv e m :: o).
Proof.
  intros S0 Hm H. pose proof (ack_read m cm S0 Hm) as AR.
  assert (PL : forall d oo, ack_in m = None -> Forall plain_obs oo -> gone sid (c_mgr c) (c_mgr d) -> tallied sid c d (XRecv e m :: oo)).
  { intros d oo N F G. apply tallied_plain; [constructor; [exact N|exact F]|exact G]. }
  assert (ES : forall x : ctx * list cobs, (c_established c = true -> tallied sid c (fst x) (XRecv e m :: snd x)) ->
     (if c_established c then (None, fst x, snd x) else (Some OtherError, c, [])) = (None, c', o) -> tallied sid c c' (XRecv e m :: o)).
  { intros x X Y. destruct (c_established c); [|discriminate Y]. injection Y as <- <-. exact (X eq_refl). }
  assert (SC : forall tt d mm, ack_in m = None -> g_sessions (c_mgr d) = g_sessions (c_mgr c) ->
    tallied sid c (fst (send_control tt d mm)) (XRecv e m :: snd (send_control tt d mm))).
  { intros tt d mm N G. unfold send_control. cbn [fst snd]. apply PL; [exact N|repeat constructor|]. apply gone_same. rewrite <- G. destruct (c_task _); reflexivity. }
  unfold process_control in H. cbv zeta in H. destruct (message_type (cm_type cm)) eqn:T; destruct (cm_body cm) eqn:B; try discriminate H;
    try (refine (ES _ _ H); intros _; apply SC; [exact AR|reflexivity]);
    try (match type of H with context [XCmd ?x] => refine (ES (c, [XCmd x]) _ H); intros _; apply PL; [exact AR|repeat constructor|now apply gone_same] end);
    try (refine (ES (_, _) _ H); intros _; apply PL; [exact AR|constructor|]; cbn [fst]; match goal with |- context [if ?b then _ else _] => destruct b end; now apply gone_same);
    try (pose proof (fun mm => SC t (snd (c_next_id c)) mm AR) as Q; unfold c_next_id in *; destruct (next_id (g_factory (c_mgr c))) as [i1 f1]; cbn [snd] in Q;
         refine (ES _ (fun _ => Q _ eq_refl) H)).
  - destruct (process_ack e c (cm_id cm) err) as [r1 c1] eqn:P. injection H as -> <- <-. apply PL; [exact AR|constructor|].
    apply gone_same. unfold process_ack, handshake_ack in P. repeat match type of P with context [match ?x with _ => _ end] => destruct x end; first [discriminate P|injection P as <-; reflexivity].
  - refine (ES _ _ H). intros _. unfold mgr_close. destruct (find_sess (c_mgr c) session_id) as [x|] eqn:Ex; [|apply PL; [exact AR|constructor|now apply gone_same]].
    destruct (sess_step x EClose) as [x' oo]. cbn [lift_mgr fst snd map]. apply PL; [exact AR|repeat constructor|].
    unfold gone, find_sess in *. cbn [c_mgr set_mgr]. gsimp. intros N. rewrite alookup_remove. destruct (sid =? session_id); [reflexivity|exact N].
  - refine (ES _ _ H). intros _. unfold mgr_data_ack. destruct (find_sess (c_mgr c) session_id) as [x|] eqn:Ex.
    + destruct (sess_step x (EDataAck length)) as [x' oo]. cbn [lift_mgr fst snd map]. intros A B0 E L. cbn [fold_left acknowledged_step granted_step]. rewrite AR.
      assert (A = B0) as ->; [|destruct (session_id =? sid); reflexivity]. apply E. intros N. apply L. apply (gone_set sid (c_mgr c) session_id x x' Ex). exact N.
    + cbn [lift_mgr fst snd map]. intros A B0 E L. cbn [fold_left acknowledged_step granted_step]. rewrite AR.
      assert (D : find_sess (c_mgr c) sid <> None) by exact L. rewrite (E D). destruct (N.eqb_spec session_id sid) as [->|]; [contradiction|reflexivity].
  - refine (ES _ _ H). intros _. unfold mgr_connect. destruct (connect_inner _ _ _ _) as [[[ty mac] a]|] eqn:CI.
    + cbv zeta. cbn [lift_mgr fst snd map]. intros A B0 E L. cbn [fold_left acknowledged_step granted_step]. rewrite AR.
      destruct (N.eqb_spec session_id sid) as [->|D]; [reflexivity|]. apply E. intros N. apply L. unfold find_sess in *. cbn [c_mgr set_mgr]. gsimp.
      rewrite alookup_insert. destruct (N.eqb_spec sid session_id) as [->|_]; [contradiction|]. rewrite <- N. unfold wake_task. gsimp. destruct (g_task (c_mgr c)); reflexivity.
    + destruct (create_hup (c_mgr c) session_id EC_CONNECTION_ERROR) as [mm g1] eqn:CH. cbn [lift_mgr fst snd map]. apply PL; [exact AR|repeat constructor|].
      exact (gone_hup sid _ _ _ _ _ _ CH).
Qed.

Lemma tallied_message sid t e c m c' o : process_message t e c m = (None, c', o) -> tallied sid c c' o.
Proof.
  unfold process_message. destruct (is_closed c); [intros [= <- <-]; apply tallied_plain; [constructor|now apply gone_same]|].
  destruct (N.eqb_spec (m_service m) 0) as [S0|S0].
  - destruct (cmsg_from_bytes (m_payload m)) as [cm| |] eqn:F; [|intros H; discriminate H|intros H; discriminate H].
    destruct (process_control t e c cm) as [[r c1] o1] eqn:P. intros [= -> <- <-]. exact (tallied_control sid t e c m cm c1 o1 S0 F P).
  - destruct (c_established c); [|intros H; discriminate H]. destruct (mgr_send (c_mgr c) m) as [g og] eqn:E. cbn [lift_mgr]. intros [= <- <-].
    assert (AR : ack_in m = None) by (unfold ack_in; destruct (N.eqb_spec (m_service m) 0); [contradiction|reflexivity]).
    apply tallied_plain; unfold mgr_send in E; cbv zeta in E; destruct (find_sess (c_mgr c) (m_session m)) as [x|] eqn:Ex.
    + destruct (sess_step x _) as [x' oo]. injection E as _ <-. repeat constructor. exact AR.
    + destruct (create_hup _ _ _). injection E as _ <-. repeat constructor. exact AR.
    + destruct (sess_step x _) as [x' oo]. injection E as <- _. exact (gone_set sid (c_mgr c) _ x x' Ex).
    + destruct (create_hup _ _ _) as [mm g1] eqn:CH. injection E as <- _. exact (gone_hup sid _ _ _ _ _ _ CH).
Qed.

Lemma tallied_feed sid c i c' o : feed_item c i = (None, c', o) -> tallied sid c c' o.
Proof.
  destruct i as [t e m| |]; cbn [feed_item]; [apply tallied_message|intros H; discriminate H|].
  intros [= <- <-]. apply tallied_plain; [constructor|now apply gone_same].
Qed.

Lemma tallied_loop sid items : forall c p c' o, client_loop c items = (p, c', o) -> goes_on p -> tallied sid c c' o.
Proof.
  induction items as [|i items IH]; intros c p c' o H G; cbn [client_loop] in H; destruct (ctx_poll c) as [[p1 c1] o1] eqn:E.
  - destruct p1; injection H as <- <- <-; exact (tallied_poll _ _ _ _ _ E).
  - destruct p1; try (injection H as <- <- <-; exact (tallied_poll _ _ _ _ _ E)).
    destruct (feed_item c1 i) as [[r c2] o2] eqn:F. destruct r; [injection H as <- _ _; destruct G|].
    destruct (client_loop c2 items) as [[p3 c3] o3] eqn:L. injection H as <- <- <-.
    apply (tallied_app sid c c1); [exact (tallied_poll _ _ _ _ _ E)|]. apply (tallied_app sid c1 c2); [exact (tallied_feed _ _ _ _ _ F)|exact (IH _ _ _ _ L G)].
Qed.

Lemma tallied_client sid c items p c' o : client_poll c items = (p, c', o) -> goes_on p -> tallied sid c c' o.
Proof.
  intros H G. unfold client_poll in H. destruct items as [|i items]; [exact (tallied_loop _ _ _ _ _ _ H G)|].
  destruct (feed_item c i) as [[r c1] o1] eqn:F. destruct r; [injection H as <- _ _; destruct G|].
  destruct (client_loop c1 items) as [[p2 c2] o2] eqn:L. injection H as <- <- <-.
  exact (tallied_app _ _ _ _ _ _ (tallied_feed _ _ _ _ _ F) (tallied_loop _ _ _ _ _ _ L G)).
Qed.

Lemma tallied_step sid k e k' o : k_result k = None -> conn_step k e = (k', o) -> k_result k' = None -> tallied sid (k_ctx k) (k_ctx k') o.
Proof.
  intros R H R'. unfold conn_step in H. rewrite R in H. destruct e as [items|t a b d| |s te].
  - destruct (client_poll (k_ctx k) items) as [[p c1] o1] eqn:E.
    destruct p; injection H as <- <-; cbn [k_result] in R'; try discriminate R'; cbn [k_ctx].
    + apply (tallied_app sid _ c1); [exact (tallied_client _ _ _ _ _ _ E Logic.I)|]. apply tallied_plain; [repeat constructor|now apply gone_same].
    + exact (tallied_client _ _ _ _ _ _ E Logic.I).
  - destruct (is_closed (k_ctx k)); [injection H as <- <-; discriminate R'|].
    destruct (time_event t (k_ctx k) a b d) as [[r c1] o1] eqn:E. injection H as <- <-. cbn [k_ctx]. exact (tallied_time sid _ _ _ _ _ _ _ _ E).
  - injection H as <- <-. discriminate R'.
  - destruct (mgr_step (c_mgr (k_ctx k)) (MTransport s te)) as [g og] eqn:E. cbn [lift_mgr] in H. injection H as <- <-. cbn [k_ctx].
    cbn [mgr_step] in E. destruct (find_sess (c_mgr (k_ctx k)) s) as [x|] eqn:Ex.
    + destruct (sess_step x (sev_of te)) as [x' oo]. injection E as <- <-. apply tallied_plain; [repeat constructor; destruct te; exact Logic.I|]. exact (gone_set sid _ s x x' Ex).
    + injection E as <- <-. apply tallied_plain; [constructor|now apply gone_same].
Qed.

Lemma tallied_run sid es : forall k k' o, conn_run k es = (k', o) -> k_result k' = None -> tallied sid (k_ctx k) (k_ctx k') o.
Proof.
  induction es as [|e es IH]; intros k k' o H R; cbn [conn_run] in H.
  - injection H as <- <-. apply tallied_plain; [constructor|now apply gone_same].
  - destruct (conn_step k e) as [k1 o1] eqn:E1. destruct (conn_run k1 es) as [k2 o2] eqn:E2. injection H as -> <-.
    assert (R1 : k_result k1 = None).
    { destruct (k_result k1) eqn:X; [|reflexivity]. exfalso. pose proof (result_stays es k1) as Y. rewrite X, E2 in Y. apply Y; [discriminate|exact R]. }
    assert (R0 : k_result k = None).
    { destruct (k_result k) eqn:X; [|reflexivity]. exfalso. pose proof (result_stays [e] k) as Y. cbn [conn_run] in Y. rewrite X, E1 in Y. apply Y; [discriminate|exact R1]. }
    exact (tallied_app _ _ _ _ _ _ (tallied_step sid _ _ _ _ R0 E1 R1) (IH _ _ _ E2 R)).
Qed.

Lemma granted_since sid h : forall acc o, acc = acked_in (map fst o) ->
  fold_left (granted_step sid) h acc = acked_in (map fst (fold_left (since_step sid) (manager_history h) o)).
Proof.
  induction h as [|x h IH]; intros acc o E; [exact E|]. cbn [fold_left]. change (x :: h) with ([x] ++ h). rewrite mhist_app.
  rewrite fold_left_app. apply IH. destruct x as [| | |m| |]; cbn [granted_step manager_history flat_map app fold_left]; try exact E.
  destruct m as [s t mac a|s e oo|s|m|w m]; cbn [since_step]; try exact E.
  - destruct (s =? sid); [reflexivity|exact E].
  - destruct (s =? sid); [|destruct e; exact E]. rewrite map_app, acked_in_app, <- E. destruct e; cbn [map fst acked_in fold_right]; lia.
Qed.

Lemma acknowledged_in t i v1 v2 es k h sid : connection t i v1 v2 es = (k, h) -> k_result k = None -> session k sid <> None ->
  acknowledged sid h = acked_in (map fst (since_open sid (manager_history h))).
Proof.
  intros H R S. unfold since_open. rewrite <- (granted_since sid h 0 [] eq_refl). unfold connection in H.
  destruct (conn_new t i v1 v2) as [k0 o0] eqn:E0. destruct (conn_run k0 es) as [k1 o1] eqn:E1. injection H as -> <-.
  unfold acknowledged. rewrite !fold_left_app. apply (tallied_run sid es k0 k o1 E1 R); [|exact S]. intros _.
  unfold conn_new in E0. destruct (ctx_new t i v1 v2) as [c o] eqn:C. injection E0 as _ <-.
  assert (F : Forall plain_obs o).
  { unfold ctx_new, send_unconfirmed, send_control in C. cbv zeta in C. repeat match type of C with context [let '(_, _) := ?x in _] => destruct x end.
    injection C as _ <-. repeat constructor. }
  destruct (plain_fold sid o F 0 0) as [-> ->]. reflexivity.
Qed.

Lemma window t i v1 v2 es k h sid s : connection t i v1 v2 es = (k, h) -> k_result k = None -> session k sid = Some s ->
  control_has_no_address h -> short_ids h ->
  nlen (data_out sid h) <= 65536 + acknowledged sid h /\
  (65536 + acknowledged sid h < 2 ^ 64 -> nlen (data_out sid h) + s_incap s = 65536 + acknowledged sid h).
Proof.
  intros H R S O1 O2. rewrite (acknowledged_in _ _ _ _ _ _ _ sid H R) by congruence.
  destruct (connection_manager _ _ _ _ _ _ _ H R) as [mes E]. destruct (projection _ _ _ _ _ _ sid s E S) as [svc P].
  pose proof (run_ok_holds svc sid 65536 (map fst (since_open sid (manager_history h)))) as RO. rewrite P in RO.
  pose proof (proj2 (WireFinal.collected _ _ _ _ _ _ _ sid H O1 O2) s R S) as C.
  unfold from_service in C. rewrite (from_service_since sid h [] [] eq_refl) in C. fold (since_open sid (manager_history h)) in C.
  rewrite (ro_in _ _ _ _ _ _ RO) in C. apply app_inv_tail in C. rewrite <- C.
  split; [pose proof (ro_win _ _ _ _ _ _ RO); lia|exact (ro_exact _ _ _ _ _ _ RO)].
Qed.


Lemma window_flow t i v1 v2 es1 k1 h1 es2 k2 h2 sid s1 s2 :
  connection t i v1 v2 es1 = (k1, h1) -> conn_run k1 es2 = (k2, h2) -> k_result k2 = None ->
  control_has_no_address h1 -> short_ids h1 -> Forall no_input es2 ->
  session k1 sid = Some s1 -> session k2 sid = Some s2 -> (ahead k1 sid s1 + 2 * wakeups es2 < client_polls es2)%nat ->
  65536 + acknowledged sid h1 < 2 ^ 64 ->
  starts_with_bytes (data_out sid (h1 ++ h2)) (firstn (N.to_nat (65536 + acknowledged sid h1)) (from_service sid h1)).
Proof.
  intros H1 H2 R2 O1 O2 NI S1 S2 L W.
  assert (R1 : k_result k1 = None).
  { destruct (k_result k1) eqn:X; [|reflexivity]. exfalso. pose proof (result_stays es2 k1) as Y. rewrite X, H2 in Y. apply Y; [discriminate|exact R2]. }
  pose proof (flow _ _ _ _ _ _ _ _ _ _ sid s1 s2 H1 H2 R2 O1 O2 NI S1 S2 L) as F.
  destruct (window _ _ _ _ _ _ _ sid s1 H1 R1 S1 O1 O2) as [_ X]. specialize (X W). rewrite <- X.
  rewrite (proj2 (WireFinal.collected _ _ _ _ _ _ _ sid H1 O1 O2) s1 R1 S1), firstn_app.
  rewrite firstn_all2 by (unfold nlen in *; lia). replace (N.to_nat (nlen (data_out sid h1) + s_incap s1) - length (data_out sid h1))%nat with (N.to_nat (s_incap s1)) by (unfold nlen; lia).
  exact F.
Qed.
