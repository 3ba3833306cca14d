(** Proof of C158: a server that respects the window. *)
From Coq Require Import NArith ZArith List Bool Lia ZifyBool ZifyNat ZifyN.
From Verif.Model Require Import Bytes Frame Service Control Alist Session Manager Client.
From Verif.Spec Require Import ManagerSpec ClientSpec WireSpec SessionSpec FairSpec WindowSpec.
From Verif.Proofs Require Import BytesFacts AlistFacts ManagerProofs ManagerPropsPf ClientInv ClientRun ClientPropsPf ClientPropsPf2 SessionProofs ProgressPf ProgressLift FairPf HangPf EndToEnd WindowPf ConfirmPf.
From Verif.Proofs Require WireFinal.
Import ListNotations.
Local Open Scope N_scope.

(** ** Messages and pushes in a history *)
Definition calm (x : cobs) : Prop := match x with XMgr (OSess _ (EPush _) _) => False | _ => True end.
Definition push_at (g : mgr) (sid : N) (p : bytes) (so : list sobs) (m : amsg) : Prop :=
  m_service m <> 0 /\ m_session m = sid /\ m_payload m = p /\ exists s s', find_sess g sid = Some s /\ sess_step s (EPush p) = (s', so).
(** What one item of the stream does *)
Definition fed (c : ctx) (o : list cobs) : Prop :=
  Forall calm o \/ exists e m sid p so, o = [XRecv e m; XMgr (OSess sid (EPush p) so)] /\ push_at (c_mgr c) sid p so m.

Lemma calm_control t e c cm r c' o : process_control t e c cm = (r, c', o) -> Forall calm o.
Proof.
  intros H. unfold process_control in H. cbv zeta in H.
  assert (ES : forall x : ctx * list cobs, Forall calm (snd x) -> (if c_established c then (None, fst x, snd x) else (Some OtherError, c, [])) = (r, c', o) -> Forall calm o).
  { intros x X Y. destruct (c_established c); injection Y as _ _ <-; [exact X|constructor]. }
  assert (SC : forall tt d mm, Forall calm (snd (send_control tt d mm))) by (intros; repeat constructor).
  destruct (message_type (cm_type cm)); destruct (cm_body cm); try (injection H as _ _ <-; constructor);
    try (refine (ES _ _ H); apply SC);
    try (refine (ES (_, _) _ H); solve [repeat constructor]);
    try (destruct (c_next_id c); refine (ES _ _ H); apply SC).
  - destruct (process_ack _ _ _ _). injection H as _ _ <-. constructor.
  - refine (ES _ _ H). unfold mgr_close. destruct (find_sess _ _); [destruct (sess_step _ _)|]; repeat constructor.
  - refine (ES _ _ H). unfold mgr_data_ack. destruct (find_sess _ _); [destruct (sess_step _ _)|]; repeat constructor.
  - refine (ES _ _ H). unfold mgr_connect. destruct (connect_inner _ _ _ _) as [[[? ?] ?]|]; [|destruct (create_hup _ _ _)]; repeat constructor.
Qed.

Lemma feed_fed c i r c' o : feed_item c i = (r, c', o) -> fed c o.
Proof.
  destruct i as [t e m| |]; cbn [feed_item]; [|intros [= <- <- <-]; left; constructor|intros [= <- <- <-]; left; constructor].
  intros H. unfold process_message in H. destruct (is_closed c); [injection H as <- <- <-; left; constructor|].
  destruct (N.eqb_spec (m_service m) 0) as [S0|S0].
  - left. destruct (cmsg_from_bytes (m_payload m)) as [cm| |].
    + destruct (process_control t e c cm) as [[r1 c1] o1] eqn:P. injection H as <- <- <-. constructor; [exact I|]. exact (calm_control _ _ _ _ _ _ _ P).
    + injection H as <- <- <-. repeat constructor.
    + injection H as <- <- <-. repeat constructor.
  - destruct (c_established c); [|injection H as <- <- <-; left; repeat constructor].
    unfold mgr_send in H. destruct (find_sess (c_mgr c) (m_session m)) as [x|] eqn:Ex.
    + destruct (sess_step x _) as [x' oo] eqn:Hs. cbn [lift_mgr map] in H. injection H as <- <- <-. right.
      exists e, m, (m_session m), (m_payload m), oo. split; [reflexivity|]. repeat split; auto. exists x, x'. auto.
    + destruct (create_hup _ _ _) as [mm g1]. cbn [lift_mgr map] in H. injection H as <- <- <-. left. repeat constructor.
Qed.

Lemma calm_loop n : forall g, Forall calm (map XMgr (snd (poll_loop n g))).
Proof.
  induction n as [|n IH]; intros g; cbn [poll_loop]; [constructor|]. destruct (g_order g) as [|x rest]; [apply IH|]. cbv zeta.
  destruct (find_sess (set_order g rest) x) as [s|]; [|apply IH]. destruct (sess_take _ s) as [[[t s'] f'] o].
  destruct t; try (destruct (create_hup _ _ _)); try (cbn [snd map]; repeat constructor; fail).
  specialize (IH (set_order (set_sess (set_factory (set_order g rest) f') x s') (g_order (set_factory (set_order g rest) f') ++ [x]))).
  destruct (poll_loop n _) as [[r g3] os]. cbn [snd map] in *. constructor; [exact I|exact IH].
Qed.
Lemma calm_poll c p c' o : ctx_poll c = (p, c', o) -> Forall calm o.
Proof.
  unfold ctx_poll. destruct (is_closed c); [intros [= _ _ <-]; constructor|]. destruct (c_messages c) as [|m q]; [|intros [= _ _ <-]; constructor].
  destruct (mgr_poll (c_mgr c)) as [g og] eqn:E.
  assert (X : Forall calm (map XMgr og)).
  { unfold mgr_poll in E. destruct (g_queue (c_mgr c)) as [|m q]; [|injection E as _ <-; repeat constructor].
    pose proof (calm_loop (length (g_order (c_mgr c))) (c_mgr c)) as L. destruct (poll_loop _ (c_mgr c)) as [[r g1] oo]. destruct r; injection E as _ <-; exact L. }
  cbv zeta. destruct (polled_msg og); intros [= _ _ <-]; exact X.
Qed.
Lemma calm_time t c v0 v1 v2 r c' o : time_event t c v0 v1 v2 = (r, c', o) -> Forall calm o.
Proof.
  intros H. unfold time_event in H. match type of H with match ?x with _ => _ end = _ => destruct x as [c2 o2] eqn:X end. injection H as _ _ <-.
  destruct (c_established c); [|injection X as _ <-; constructor].
  match type of X with match ?x with _ => _ end = _ => destruct x as [c3 o3] eqn:Y end.
  match type of X with match ?x with _ => _ end = _ => destruct x as [c4 o4] eqn:Z end. injection X as _ <-. apply Forall_app. split.
  + destruct (PING_PERIOD <=? _)%Z; [|injection Y as _ <-; constructor]. unfold send_ping, send_unconfirmed, send_control in Y.
    destruct (c_next_id c). injection Y as _ <-. repeat constructor.
  + destruct (UPDATE_CHECK_PERIOD <=? _)%Z; [|injection Z as _ <-; constructor]. unfold check_for_updates, send_update, send_control in Z.
    destruct (c_version c3 =? v_version v0); [injection Z as _ <-; constructor|]. destruct (c_next_id c3). injection Z as _ <-. repeat constructor.
Qed.


(** ** The state right before a push *)
Definition push (sid : N) (p : bytes) (so : list sobs) : cobs := XMgr (OSess sid (EPush p) so).
Lemma no_push o h1 sid p so h2 : Forall calm o -> o = h1 ++ push sid p so :: h2 -> False.
Proof. intros F ->. apply Forall_app in F. destruct F as [_ F]. inversion F as [|? ? X]. exact X. Qed.
Lemma fed_push c o h1 sid p so h2 : fed c o -> o = h1 ++ push sid p so :: h2 -> exists e m, h1 = [XRecv e m] /\ push_at (c_mgr c) sid p so m.
Proof.
  intros [F|(e & m & sid' & p' & so' & -> & P)] E; [destruct (no_push _ _ _ _ _ _ F E)|].
  destruct h1 as [|y [|z h1]]; [discriminate E| |destruct h1; discriminate E]. injection E as <- <- <- <- _. exists e, m. auto.
Qed.

Lemma loop_push items : forall c p c' o h1 sid pl so h2, client_loop c items = (p, c', o) -> o = h1 ++ push sid pl so :: h2 ->
  exists items1 c1 g1 e m, client_loop c items1 = (PPending, c1, g1) /\ h1 = g1 ++ [XRecv e m] /\ push_at (c_mgr c1) sid pl so m.
Proof.
  induction items as [|i items IH]; intros c p c' o h1 sid pl so h2 H E; cbn [client_loop] in H; destruct (ctx_poll c) as [[p1 c1] o1] eqn:Ep; pose proof (calm_poll _ _ _ _ Ep) as C.
  - destruct p1; injection H as <- <- <-; destruct (no_push _ _ _ _ _ _ C E).
  - destruct p1; try (injection H as <- <- <-; destruct (no_push _ _ _ _ _ _ C E)).
    assert (L0 : client_loop c [] = (PPending, c1, o1)) by (cbn [client_loop]; now rewrite Ep).
    destruct (feed_item c1 i) as [[r c2] o2] eqn:F. pose proof (feed_fed _ _ _ _ _ F) as D. destruct r as [kd|].
    + injection H as <- <- <-. apply app_split in E as [(y & E & _)|(y & E & ->)]; [destruct (no_push _ _ _ _ _ _ C E)|].
      destruct (fed_push _ _ _ _ _ _ _ D E) as (e & m & -> & P). exists [], c1, o1, e, m. auto.
    + destruct (client_loop c2 items) as [[p3 c3] o3] eqn:L. injection H as <- <- <-.
      apply app_split in E as [(y & E & _)|(y & E & ->)]; [destruct (no_push _ _ _ _ _ _ C E)|].
      apply app_split in E as [(y' & E & _)|(y' & E & ->)].
      * destruct (fed_push _ _ _ _ _ _ _ D E) as (e & m & -> & P). exists [], c1, o1, e, m. auto.
      * destruct (IH _ _ _ _ _ _ _ _ _ L E) as (items1 & c4 & g1 & e & m & L1 & -> & P). exists (i :: items1), c4, (o1 ++ o2 ++ g1), e, m.
        split; [|split; [now rewrite <- !app_assoc|exact P]]. cbn [client_loop]. rewrite Ep, F, L1. reflexivity.
Qed.

Lemma step_push k e k' o h1 sid pl so h2 : conn_step k e = (k', o) -> k_result k = None -> o = h1 ++ push sid pl so :: h2 ->
  exists es1 k1 g1 ev m, conn_run k es1 = (k1, g1) /\ k_result k1 = None /\ h1 = g1 ++ [XRecv ev m] /\ push_at (c_mgr (k_ctx k1)) sid pl so m.
Proof.
  intros H R E. unfold conn_step in H. rewrite R in H. destruct e as [items|t a b d| |s te].
  - destruct (client_poll (k_ctx k) items) as [[p c1] o1] eqn:Ep.
    assert (X : exists h2', o1 = h1 ++ push sid pl so :: h2').
    { destruct p; injection H as <- <-; eauto. apply app_split in E as [(y & E & _)|(y & E & _)]; [eauto|]. destruct y as [|? [|? ?]]; discriminate E. }
    destruct X as [h2' X]. unfold client_poll in Ep. destruct items as [|i items].
    + destruct (loop_push [] _ _ _ _ _ _ _ _ _ Ep X) as (items1 & c2 & g1 & ev & m & L & -> & P).
      cbn [client_loop] in Ep. destruct (ctx_poll (k_ctx k)) as [[p0 c0] o0] eqn:Eq. pose proof (calm_poll _ _ _ _ Eq) as C.
      destruct p0; injection Ep as <- <- <-; destruct (no_push _ _ _ _ _ _ C X).
    + destruct (feed_item (k_ctx k) i) as [[r c2] o2] eqn:F. pose proof (feed_fed _ _ _ _ _ F) as D.
      assert (N : forall ev m, h1 = [XRecv ev m] -> push_at (c_mgr (k_ctx k)) sid pl so m ->
        exists es1 k1 g1 ev m, conn_run k es1 = (k1, g1) /\ k_result k1 = None /\ h1 = g1 ++ [XRecv ev m] /\ push_at (c_mgr (k_ctx k1)) sid pl so m).
      { intros ev m -> P. exists [], k, [], ev, m. auto. }
      destruct r as [kd|].
      * injection Ep as <- <- <-. destruct (fed_push _ _ _ _ _ _ _ D X) as (ev & m & Y & P). exact (N ev m Y P).
      * destruct (client_loop c2 items) as [[p3 c3] o3] eqn:L. injection Ep as <- <- <-. apply app_split in X as [(y & X & _)|(y & X & ->)].
        -- destruct (fed_push _ _ _ _ _ _ _ D X) as (ev & m & Y & P). exact (N ev m Y P).
        -- destruct (loop_push _ _ _ _ _ _ _ _ _ _ L X) as (items1 & c4 & g1 & ev & m & L1 & -> & P).
           exists [KPoll (i :: items1)], {| k_ctx := c4; k_result := None |}, (o2 ++ g1), ev, m. split; [|split; [reflexivity|split; [now rewrite <- app_assoc|exact P]]].
           cbn [conn_run]. unfold conn_step. rewrite R. unfold client_poll. rewrite F, L1. now rewrite app_nil_r.
  - destruct (is_closed (k_ctx k)); [injection H as <- <-; destruct h1; discriminate E|].
    destruct (time_event t (k_ctx k) a b d) as [[r c1] o1] eqn:Et. injection H as <- <-. pose proof (calm_time _ _ _ _ _ _ _ _ Et) as C.
    assert (C' : Forall calm (XTick t a b d :: o1)) by (constructor; [exact I|exact C]). destruct (no_push _ _ _ _ _ _ C' E).
  - injection H as <- <-. destruct h1; discriminate E.
  - cbn [mgr_step] in H. destruct (find_sess (c_mgr (k_ctx k)) s) as [x|].
    + destruct (sess_step x (sev_of te)) as [x' oo]. cbn [lift_mgr map] in H. injection H as <- <-.
      assert (C : Forall calm [XMgr (OSess s (sev_of te) oo)]) by (repeat constructor; destruct te; exact I). destruct (no_push _ _ _ _ _ _ C E).
    + cbn [lift_mgr map] in H. injection H as <- <-. destruct h1; discriminate E.
Qed.

Lemma run_push es : forall k k' o h1 sid pl so h2, conn_run k es = (k', o) -> o = h1 ++ push sid pl so :: h2 ->
  exists es1 k1 g1 ev m, conn_run k es1 = (k1, g1) /\ k_result k1 = None /\ h1 = g1 ++ [XRecv ev m] /\ push_at (c_mgr (k_ctx k1)) sid pl so m.
Proof.
  induction es as [|e es IH]; intros k k' o h1 sid pl so h2 H E; cbn [conn_run] in H; [injection H as <- <-; destruct h1; discriminate E|].
  destruct (conn_step k e) as [k1 o1] eqn:E1. destruct (conn_run k1 es) as [k2 o2] eqn:E2. injection H as <- <-.
  apply app_split in E as [(y & E & _)|(y & E & ->)].
  - destruct (k_result k) eqn:R; [unfold conn_step in E1; rewrite R in E1; injection E1 as <- <-; destruct h1; discriminate E|].
    exact (step_push _ _ _ _ _ _ _ _ _ E1 R E).
  - destruct (IH _ _ _ _ _ _ _ _ E2 E) as (es1 & k3 & g1 & ev & m & A & B & -> & P). exists (e :: es1), k3, (o1 ++ g1), ev, m.
    split; [|split; [exact B|split; [now rewrite <- app_assoc|exact P]]]. cbn [conn_run]. rewrite E1, A. reflexivity.
Qed.

Lemma connection_push t i v1 v2 es k h h1 sid pl so h2 : connection t i v1 v2 es = (k, h) -> h = h1 ++ push sid pl so :: h2 ->
  exists es1 k1 g1 ev m, connection t i v1 v2 es1 = (k1, g1) /\ k_result k1 = None /\ h1 = g1 ++ [XRecv ev m] /\ push_at (c_mgr (k_ctx k1)) sid pl so m.
Proof.
  unfold connection. destruct (conn_new t i v1 v2) as [k0 o0] eqn:N. destruct (conn_run k0 es) as [k1 o1] eqn:E1. intros [= <- <-] E.
  apply app_split in E as [(y & E & _)|(y & E & ->)].
  - exfalso. unfold conn_new in N. destruct (ctx_new t i v1 v2) as [c o] eqn:C. injection N as _ <-.
    assert (F : Forall calm o).
    { unfold ctx_new, send_unconfirmed, send_control in C. cbv zeta in C. repeat match type of C with context [let '(_, _) := ?x in _] => destruct x end.
      injection C as _ <-. repeat constructor. }
    exact (no_push _ _ _ _ _ _ F E).
  - destruct (run_push _ _ _ _ _ _ _ _ _ E1 E) as (es1 & k3 & g1 & ev & m & A & B & -> & P). exists es1, k3, (o0 ++ g1), ev, m.
    rewrite A. split; [reflexivity|]. split; [exact B|]. split; [now rewrite <- app_assoc|exact P].
Qed.

(** ** What closes a session *)
Definition strip (s : sess) : sess :=
  {| s_service := 0; s_session := s_session s; s_input := s_input s; s_output := s_output s;
     s_incap := s_incap s; s_outcap := s_outcap s; s_written := s_written s; s_mgr_waker := s_mgr_waker s;
     s_tr_waker := s_tr_waker s; s_closed := s_closed s; s_error := s_error s; s_phase := s_phase s;
     s_mgr_run := s_mgr_run s; s_tr_run := s_tr_run s; s_wait_rd := s_wait_rd s; s_wait_wr := s_wait_wr s |}.
Lemma strip_wake_mgr s : wake_mgr (strip s) = strip (wake_mgr s).
Proof. unfold wake_mgr. cbn [strip s_mgr_waker]. destruct (s_mgr_waker s); reflexivity. Qed.
Lemma strip_wake_tr s : wake_tr (strip s) = strip (wake_tr s).
Proof. unfold wake_tr. cbn [strip s_tr_waker]. destruct (s_tr_waker s); reflexivity. Qed.
Lemma strip_close s : sess_close (strip s) = strip (sess_close s).
Proof. unfold sess_close. change (with_closed (strip s) true (s_error (strip s))) with (strip (with_closed s true (s_error s))). now rewrite strip_wake_tr, strip_wake_mgr. Qed.
Lemma strip_error s : sess_set_error (strip s) = strip (sess_set_error s).
Proof.
  unfold sess_set_error. cbn [strip s_closed]. destruct (s_closed s); [reflexivity|].
  change (with_closed (strip s) false true) with (strip (with_closed s false true)). apply strip_close.
Qed.
Lemma strip_read s r : poll_read_input (strip s) r = (let '(b, s', o) := poll_read_input s r in (b, strip s', o)).
Proof.
  unfold poll_read_input. cbn [strip s_closed s_input]. destruct (s_closed s); [reflexivity|]. destruct (BUFFER_CAPACITY <=? nlen (s_input s)); [reflexivity|].
  destruct r as [|b|]; [reflexivity| |].
  - destruct b as [|b0 b].
    + change (with_wait (strip s) false (s_wait_wr (strip s))) with (strip (with_wait s false (s_wait_wr s))). rewrite strip_close.
      cbn [strip s_input]. destruct (s_input (sess_close _)); [reflexivity|]. now rewrite <- strip_wake_mgr.
    + change (with_input (with_wait (strip s) false (s_wait_wr (strip s))) (s_input (with_wait (strip s) false (s_wait_wr (strip s))) ++ b0 :: b))
        with (strip (with_input (with_wait s false (s_wait_wr s)) (s_input (with_wait s false (s_wait_wr s)) ++ b0 :: b))).
      cbn [strip s_input]. destruct (s_input (with_input _ _)); [reflexivity|]. now rewrite <- strip_wake_mgr.
  - change (with_wait (strip s) false (s_wait_wr (strip s))) with (strip (with_wait s false (s_wait_wr s))). rewrite strip_error.
    cbn [strip s_input]. destruct (s_input (sess_set_error _)); [reflexivity|]. now rewrite <- strip_wake_mgr.
Qed.
Lemma strip_write s w : poll_write_output (strip s) w = (let '(b, s', o) := poll_write_output s w in (b, strip s', o)).
Proof.
  unfold poll_write_output. cbn [strip s_output s_closed]. destruct (s_output s) eqn:O; [destruct (s_closed s); reflexivity|].
  destruct w; [reflexivity| |].
  - cbv zeta. cbn [with_wait strip s_output]. rewrite !O. cbn [s_outcap s_incap s_written with_output with_caps strip].
    match goal with |- (_, wake_mgr ?a, _) = (_, strip (wake_mgr ?b), _) => change a with (strip b) end. now rewrite strip_wake_mgr.
  - change (with_wait (strip s) (s_wait_rd (strip s)) false) with (strip (with_wait s (s_wait_rd s) false)). now rewrite strip_error.
Qed.
Lemma strip_step s e : fst (sess_step (strip s) e) = strip (fst (sess_step s e)).
Proof.
  destruct e as [n|p|f| | | |r w| |]; cbn [sess_step].
  - unfold sess_data_ack. cbn [fst]. rewrite <- strip_wake_mgr. reflexivity.
  - unfold sess_push. cbn [strip s_closed s_outcap]. destruct (s_closed s); [reflexivity|]. destruct (s_outcap s <? nlen p); [apply strip_error|].
    cbn [fst]. cbv zeta. set (a := with_output (with_caps s (s_incap s) (s_outcap s - nlen p) (s_written s)) (s_output (with_caps s (s_incap s) (s_outcap s - nlen p) (s_written s)) ++ p)).
    match goal with |- match s_output ?x with _ => _ end = _ => change x with (strip a) end. cbn [strip s_output].
    destruct (s_output a); [reflexivity|apply strip_wake_tr].
  - unfold sess_take. cbn [strip s_written]. destruct (0 <? s_written s); [destruct (next_id f); reflexivity|]. cbv zeta. cbn [s_incap s_input s_outcap s_written strip].
    set (a := with_input (with_caps s (s_incap s - N.min (s_incap s) (nlen (s_input s))) (s_outcap s) (s_written s)) (skipn (N.to_nat (N.min (s_incap s) (nlen (s_input s)))) (s_input (with_caps s (s_incap s - N.min (s_incap s) (nlen (s_input s))) (s_outcap s) (s_written s))))).
    match goal with |- context [nlen (s_input ?x) <? BUFFER_CAPACITY] => change x with (strip a) end.
    change (nlen (s_input (strip a))) with (nlen (s_input a)).
    assert (W : (if nlen (s_input a) <? BUFFER_CAPACITY then wake_tr (strip a) else strip a) = strip (if nlen (s_input a) <? BUFFER_CAPACITY then wake_tr a else a)).
    { destruct (nlen (s_input a) <? BUFFER_CAPACITY); [apply strip_wake_tr|reflexivity]. }
    rewrite W. set (b := if nlen (s_input a) <? BUFFER_CAPACITY then wake_tr a else a). clearbody b. clear W.
    destruct (firstn _ _); [|reflexivity]. cbn [strip s_closed s_error]. destruct (s_closed b); [destruct (s_error b); reflexivity|reflexivity].
  - cbn [fst]. apply strip_close.
  - cbn [strip s_phase]. destruct (s_phase s); reflexivity.
  - cbn [strip s_phase]. destruct (s_phase s); try reflexivity. cbn [fst]. rewrite strip_error. reflexivity.
  - unfold transport_poll. cbn [strip s_phase s_tr_waker]. destruct (s_phase s); try reflexivity.
    change (with_tr (strip s) (s_tr_waker s) false) with (strip (with_tr s (s_tr_waker s) false)). set (a := with_tr s (s_tr_waker s) false). clearbody a.
    cbn [strip s_closed]. destruct (s_closed a); [reflexivity|]. rewrite strip_read. destruct (poll_read_input a r) as [[x1 s1] o1]. rewrite strip_write.
    destruct (poll_write_output s1 w) as [[x2 s2] o2]. cbn [fst]. destruct (x1 || x2); reflexivity.
  - cbn [strip s_wait_rd]. destruct (s_wait_rd s); reflexivity.
  - cbn [strip s_wait_wr]. destruct (s_wait_wr s); reflexivity.
Qed.
Lemma strip_run es : forall s, fst (sess_run (strip s) es) = strip (fst (sess_run s es)).
Proof.
  induction es as [|e es IH]; intros s; [reflexivity|]. cbn [sess_run]. pose proof (strip_step s e) as H.
  destruct (sess_step s e) as [s1 o1]. destruct (sess_step (strip s) e) as [s2 o2]. cbn [fst] in H. subst s2. specialize (IH s1).
  destruct (sess_run s1 es). destruct (sess_run (strip s1) es). exact IH.
Qed.

Lemma wake_closed s : s_closed (wake_mgr s) = s_closed s /\ s_closed (wake_tr s) = s_closed s.
Proof. unfold wake_mgr, wake_tr. destruct (s_mgr_waker s), (s_tr_waker s); split; reflexivity. Qed.
Lemma step_closes s e : s_closed s = false -> s_closed (fst (sess_step s e)) = true ->
  ends_session e = true \/ exists p, e = EPush p /\ s_outcap s < nlen p.
Proof.
  intros C H. destruct e as [n|p|f| | | |r w| |]; cbn [sess_step] in H; try (left; reflexivity).
  - cbn [fst] in H. unfold sess_data_ack in H. rewrite (proj1 (wake_closed _)) in H. cbn in H. congruence.
  - unfold sess_push in H. rewrite C in H. destruct (N.ltb_spec (s_outcap s) (nlen p)); [right; eauto|]. cbn [fst] in H. cbv zeta in H.
    destruct (s_output _); [|rewrite (proj2 (wake_closed _)) in H]; cbn in H; congruence.
  - exfalso. unfold sess_take in H. destruct (0 <? s_written s); [destruct (next_id f); cbn in H; congruence|]. cbv zeta in H.
    set (a := with_input _ _) in H. assert (Ca : s_closed a = false) by exact C. clearbody a.
    assert (Cb : s_closed (if nlen (s_input a) <? BUFFER_CAPACITY then wake_tr a else a) = false) by (destruct (nlen (s_input a) <? BUFFER_CAPACITY); [rewrite (proj2 (wake_closed _))|]; exact Ca).
    destruct (firstn _ _); [|cbn in H; congruence]. rewrite Cb in H. cbn in H. congruence.
  - exfalso. destruct (s_phase s); cbn in H; congruence.
  - unfold transport_poll in H. destruct (s_phase s); try (cbn in H; congruence). set (a := with_tr _ _ _) in H. assert (Ca : s_closed a = false) by exact C. clearbody a. rewrite Ca in H.
    destruct (poll_read_input a r) as [[x1 s1] o1] eqn:R. destruct (poll_write_output s1 w) as [[x2 s2] o2] eqn:W. cbn [fst] in H.
    assert (C2 : s_closed s2 = true) by (destruct (x1 || x2); exact H). clear H. left.
    destruct (ends_session (ETransport r w)) eqn:EN; [reflexivity|]. exfalso. cbn [ends_session] in EN.
    assert (C1 : s_closed s1 = false).
    { unfold poll_read_input in R. rewrite Ca in R. destruct (_ <=? _); [injection R as _ <- _; exact Ca|].
      destruct r as [|[|b0 b]|]; try discriminate EN; [injection R as _ <- _; exact Ca|]. injection R as _ <- _.
      match goal with |- context [match ?x with [] => _ | _ => _ end] => destruct x end; [|rewrite (proj1 (wake_closed _))]; exact Ca. }
    unfold poll_write_output in W. destruct (s_output s1); [rewrite C1 in W; injection W as _ <- _; cbn in C2; congruence|].
    destruct w as [| |]; [injection W as _ <- _; cbn in C2; congruence| |destruct r as [|[|? ?]|]; discriminate EN].
    injection W as _ <- _. rewrite (proj1 (wake_closed _)) in C2. cbn in C2. congruence.
  - exfalso. destruct (s_wait_rd s); cbn in H; congruence.
  - exfalso. destruct (s_wait_wr s); cbn in H; congruence.
Qed.
Lemma run_closes es : forall s, s_closed s = false -> s_closed (fst (sess_run s es)) = true ->
  existsb ends_session es = true \/ exists a p b, es = a ++ EPush p :: b /\ s_closed (fst (sess_run s a)) = false /\ s_outcap (fst (sess_run s a)) < nlen p.
Proof.
  induction es as [|e es IH]; intros s C H; [cbn in H; congruence|]. cbn [sess_run] in H. pose proof (step_closes s e C) as SC.
  destruct (sess_step s e) as [s1 o1] eqn:E. cbn [fst] in SC. destruct (s_closed s1) eqn:C1.
  - destruct (SC eq_refl) as [X|(p & -> & X)]; [left; cbn [existsb]; now rewrite X|]. right. exists [], p, es. auto.
  - assert (H' : s_closed (fst (sess_run s1 es)) = true) by (destruct (sess_run s1 es); exact H).
    destruct (IH s1 C1 H') as [X|(a & p & b & -> & X & Y)]; [left; cbn [existsb]; now rewrite X, orb_true_r|].
    right. exists (e :: a), p, b. cbn [sess_run app]. rewrite E. destruct (sess_run s1 a). auto.
Qed.

Lemma since_split sid mh : forall acc La x Lb, fold_left (since_step sid) mh acc = La ++ x :: Lb ->
  (exists Lc, acc = La ++ x :: Lc) \/ exists u v, mh = u ++ OSess sid (fst x) (snd x) :: v /\ fold_left (since_step sid) u acc = La.
Proof.
  induction mh as [|y mh IH]; intros acc La x Lb H; [left; exists Lb; exact H|]. cbn [fold_left] in H.
  destruct (IH _ _ _ _ H) as [[Lc E]|(u & v & -> & E)]; [|right; exists (y :: u), v; auto].
  destruct y as [s t mac a|s e oo|s|m|w m]; cbn [since_step] in E; try (left; eauto; fail).
  - destruct (s =? sid); [destruct La; discriminate E|left; eauto].
  - destruct (N.eqb_spec s sid) as [->|]; [|left; eauto]. symmetry in E. destruct (exists_last (l := x :: Lc)) as (l & z & Ez); [discriminate|].
    destruct l as [|l0 l].
    + injection Ez as -> ->. apply app_inj_tail in E. destruct E as [-> ->]. right. exists [], mh. auto.
    + left. rewrite Ez, app_assoc in E. apply app_inj_tail in E. destruct E as [<- _]. injection Ez as <- _. eauto.
Qed.

Lemma respectful_left sid h o : respectful sid (h ++ o) -> respectful sid h.
Proof. intros H h1 e m h2 ->. apply (H h1 e m (h2 ++ o)). now rewrite <- app_assoc. Qed.

(** A push into a session that the service has not ended fits. *)
Lemma fits t i v1 v2 es k h sid s ev m : connection t i v1 v2 es = (k, h) -> k_result k = None -> session k sid = Some s -> s_closed s = false -> okh h ->
  respectful sid (h ++ [XRecv ev m]) -> m_service m <> 0 -> m_session m = sid -> nlen (m_payload m) <= s_outcap s.
Proof.
  intros H R S C [O1 O2] RS M1 M2. pose proof (room _ _ _ _ _ _ _ sid s H R S C O1 O2) as X. pose proof (RS h ev m [] eq_refl M1 M2) as Y.
  unfold data_in in Y. rewrite fold_left_app in Y. cbn [fold_left data_in_step] in Y. apply N.eqb_neq in M1. rewrite M1, M2, N.eqb_refl in Y. cbn [negb andb] in Y.
  rewrite nlen_app in Y. unfold data_in in X. lia.
Qed.

Lemma stays_open t i v1 v2 es k h sid s : connection t i v1 v2 es = (k, h) -> k_result k = None -> session k sid = Some s -> okh h -> respectful sid h ->
  existsb ends_session (map fst (since_open sid (manager_history h))) = false -> s_closed s = false.
Proof.
  intros H R S O RS NE. destruct (s_closed s) eqn:C; [exfalso|reflexivity].
  destruct (connection_manager _ _ _ _ _ _ _ H R) as [mes E]. destruct (projection _ _ _ _ _ _ sid s E S) as [svc P].
  pose proof (run_closes (map fst (since_open sid (manager_history h))) (sess_new svc sid 65536) eq_refl) as RC. rewrite P in RC. cbn [fst] in RC.
  destruct (RC C) as [X|(a & p & b & Ea & Ca & La)]; [congruence|]. clear RC.
  apply map_eq_app in Ea. destruct Ea as (l1 & l2 & EL & El1 & El2). destruct l2 as [|[e0 so] l2]; [discriminate El2|]. cbn [map fst] in El2. injection El2 as -> _.
  unfold since_open in EL. destruct (since_split sid _ _ _ _ _ EL) as [[Lc X]|(u & v & Eu & Ev)]; [destruct l1; discriminate X|]. cbn [fst snd] in Eu.
  destruct (mhist_split h u _ v Eu) as (A & B & EA & MA & _).
  destruct (connection_push _ _ _ _ _ _ _ A sid p so B H EA) as (es1 & k1 & g1 & ev & m & H1 & R1 & -> & M1 & M2 & M3 & s1 & s1' & S1 & _).
  rewrite mhist_app in MA. cbn in MA. rewrite app_nil_r in MA.
  destruct (connection_manager _ _ _ _ _ _ _ H1 R1) as [mes1 E1]. destruct (projection _ _ _ _ _ _ sid s1 E1 S1) as [svc1 P1].
  assert (X : strip s1 = strip (fst (sess_run (sess_new svc sid 65536) a))).
  { replace s1 with (fst (sess_run (sess_new svc1 sid 65536) (map fst (since_open sid (manager_history g1))))) by (rewrite P1; reflexivity).
    rewrite <- !strip_run. unfold since_open. rewrite MA, Ev, El1. reflexivity. }
  assert (X1 : s_closed s1 = false) by (change (s_closed (strip s1) = false); rewrite X; exact Ca).
  assert (X2 : s_outcap s1 < nlen p) by (change (s_outcap (strip s1) < nlen p); rewrite X; exact La).
  assert (RS1 : respectful sid (g1 ++ [XRecv ev m])) by (rewrite EA in RS; exact (respectful_left _ _ _ RS)).
  rewrite EA, <- app_assoc in O. pose proof (fits _ _ _ _ _ _ _ sid s1 ev m H1 R1 S1 X1 (okh_app _ _ O) RS1 M1 M2) as Y. rewrite M3 in Y. lia.
Qed.

Lemma accepted_all t i v1 v2 es k h h1 sid p so h2 : connection t i v1 v2 es = (k, h) -> control_has_no_address h -> short_ids h -> respectful sid h ->
  h = h1 ++ XMgr (OSess sid (EPush p) so) :: h2 -> existsb ends_session (map fst (since_open sid (manager_history h1))) = false -> so = [Accepted p].
Proof.
  intros H O1 O2 RS E NE. destruct (connection_push _ _ _ _ _ _ _ h1 sid p so h2 H E) as (es1 & k1 & g1 & ev & m & H1 & R1 & -> & M1 & M2 & M3 & s1 & s1' & S1 & St).
  rewrite mhist_app in NE. cbn in NE. rewrite app_nil_r in NE.
  assert (RS1 : respectful sid (g1 ++ [XRecv ev m])) by (rewrite E in RS; exact (respectful_left _ _ _ RS)).
  assert (O : okh g1). { assert (O : okh h) by (split; assumption). rewrite E, <- app_assoc in O. exact (okh_app _ _ O). }
  pose proof (stays_open _ _ _ _ _ _ _ sid s1 H1 R1 S1 O (respectful_left _ _ _ RS1) NE) as C.
  pose proof (fits _ _ _ _ _ _ _ sid s1 ev m H1 R1 S1 C O RS1 M1 M2) as F. rewrite M3 in F.
  cbn [sess_step] in St. unfold sess_push in St. rewrite C in St. destruct (N.ltb_spec (s_outcap s1) (nlen p)); [lia|]. injection St as _ <-. reflexivity.
Qed.

Lemma rejected t i v1 v2 es k h h1 e m sid p so h2 : connection t i v1 v2 es = (k, h) -> control_has_no_address h -> short_ids h ->
  h = h1 ++ XRecv e m :: XMgr (OSess sid (EPush p) so) :: h2 -> 65536 + confirmed sid h1 < nlen (data_in sid (h1 ++ [XRecv e m])) -> so = [].
Proof.
  intros H O1 O2 E L. destruct (connection_push _ _ _ _ _ _ _ (h1 ++ [XRecv e m]) sid p so h2 H) as (es1 & k1 & g1 & ev & m' & H1 & R1 & Eg & M1 & M2 & M3 & s1 & s1' & S1 & St);
    [rewrite <- app_assoc; exact E|]. apply app_inj_tail in Eg. destruct Eg as [<- X]. injection X as <- <-.
  cbn [sess_step] in St. unfold sess_push in St. destruct (s_closed s1) eqn:C; [injection St as _ <-; reflexivity|].
  assert (O : okh h1). { assert (O : okh h) by (split; assumption). rewrite E in O. exact (okh_app _ _ O). }
  pose proof (room _ _ _ _ _ _ _ sid s1 H1 R1 S1 C (proj1 O) (proj2 O)) as X.
  unfold data_in in L. rewrite fold_left_app in L. cbn [fold_left data_in_step] in L. apply N.eqb_neq in M1. rewrite M1, M2, N.eqb_refl in L. cbn [negb andb] in L.
  rewrite nlen_app, M3 in L. unfold data_in in X. destruct (N.ltb_spec (s_outcap s1) (nlen p)); [injection St as _ <-; reflexivity|lia].
Qed.

Lemma open_and_kept t i v1 v2 es k h sid s : connection t i v1 v2 es = (k, h) -> k_result k = None -> session k sid = Some s ->
  control_has_no_address h -> short_ids h -> respectful sid h -> existsb ends_session (map fst (since_open sid (manager_history h))) = false ->
  s_closed s = false /\ data_in sid h = to_service sid h ++ s_output s.
Proof.
  intros H R S O1 O2 RS NE. pose proof (stays_open _ _ _ _ _ _ _ sid s H R S (conj O1 O2) RS NE) as C. split; [exact C|].
  destruct (WireFinal.connection_e2e _ _ _ _ _ _ _ H) as [EE _]. pose proof (e_in _ _ (EE R) sid) as J. unfold session in S. rewrite S in J. now apply J.
Qed.
