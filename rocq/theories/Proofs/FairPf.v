(** Proof of C140. *)
From Coq Require Import NArith ZArith List Bool Lia ZifyBool ZifyNat ZifyN.
From Verif.Model Require Import Bytes Frame Service Control Alist Session Manager Client.
From Verif.Spec Require Import ManagerSpec ClientSpec WireSpec SessionSpec FairSpec.
From Verif.Proofs Require Import AlistFacts ManagerProofs ManagerPropsPf ClientInv ClientPropsPf ClientPropsPf2 SessionProofs ProgressPf ProgressLift.
Import ListNotations.
Local Open Scope N_scope.

(** The session manager goes from one state to the other, the polls that it saw are counted. *)
Definition moves (sid : N) (c c' : ctx) (h : list cobs) (n : nat) : Prop :=
  exists mes, mgr_run (c_mgr c) mes = (c_mgr c', manager_history h) /\
    (In (MClose sid) mes -> hung_up sid h) /\ acks_for sid mes <= granted sid h /\
    (n + length (c_messages c') <= length (c_messages c) + length (produced h) + polls mes)%nat.

Lemma granted_app sid a b : granted sid (a ++ b) = granted sid a + granted sid b.
Proof. induction a as [|x a IH]; [reflexivity|]. cbn [app granted fold_right]. fold (granted sid (a ++ b)) (granted sid a). rewrite IH. lia. Qed.
Lemma acks_app sid a b : acks_for sid (a ++ b) = acks_for sid a + acks_for sid b.
Proof. induction a as [|x a IH]; [reflexivity|]. cbn [app acks_for fold_right]. fold (acks_for sid (a ++ b)) (acks_for sid a). rewrite IH. lia. Qed.
Lemma polls_app a b : polls (a ++ b) = (polls a + polls b)%nat.
Proof. unfold polls. now rewrite filter_app, app_length. Qed.

Lemma moves_app sid c c1 c2 h1 h2 n1 n2 : moves sid c c1 h1 n1 -> moves sid c1 c2 h2 n2 -> moves sid c c2 (h1 ++ h2) (n1 + n2).
Proof.
  intros (m1 & A1 & B1 & D1 & E1) (m2 & A2 & B2 & D2 & E2). exists (m1 ++ m2).
  split; [|split; [|split]].
  - rewrite mgr_run_app, A1, A2, mhist_app. reflexivity.
  - intros H. apply in_app_or in H as [H|H]; [destruct (B1 H) as [o X]|destruct (B2 H) as [o X]]; exists o; apply in_or_app; auto.
  - rewrite acks_app, granted_app. lia.
  - rewrite polls_app, produced_app, app_length. lia.
Qed.

Lemma moves_none sid c c' : c_mgr c' = c_mgr c -> c_messages c' = c_messages c -> moves sid c c' [] 0.
Proof. intros A B. exists []. rewrite A, B. repeat split; try (cbn; lia). Qed.

Lemma moves_less sid c c' h n : moves sid c c' h n -> moves sid c c' h 0.
Proof. intros (m & A & B & D & E). exists m. repeat split; auto. lia. Qed.

(** An event of the server or of a transport task. *)
Lemma moves_mgr sid c me g o :
  mgr_step (c_mgr c) me = (g, o) -> (forall s, me <> MClose s) -> (forall s n, me <> MDataAck s n) -> me <> MPoll ->
  moves sid c (set_mgr c g) (map XMgr o) 0.
Proof.
  intros E A B D. exists [me]. cbn [mgr_run]. rewrite E. rewrite mhist_lift, app_nil_r. split; [reflexivity|].
  split; [|split].
  - intros [->|[]]. now destruct (A sid).
  - assert (acks_for sid [me] = 0) as -> by (destruct me; try reflexivity; now destruct (B sid0 len)). lia.
  - assert (polls [me] = 0%nat) as -> by (destruct me; try reflexivity; now destruct D). cbn. lia.
Qed.

Lemma moves_poll sid c g o : mgr_poll (c_mgr c) = (g, o) -> moves sid c (set_mgr c g) (map XMgr o) 1.
Proof.
  intros E. exists [MPoll]. cbn [mgr_run mgr_step]. rewrite E. rewrite mhist_lift, app_nil_r. split; [reflexivity|].
  split; [intros [X|[]]; discriminate X|]. split; [cbn; lia|]. cbn. lia.
Qed.

Lemma moves_close sid c s : moves sid c (fst (lift_mgr c (mgr_close (c_mgr c) s))) (snd (lift_mgr c (mgr_close (c_mgr c) s))) 0.
Proof.
  unfold mgr_close. destruct (find_sess (c_mgr c) s) as [x|] eqn:Ex; [|now apply moves_none].
  destruct (sess_step x EClose) as [x' o] eqn:Es. unfold lift_mgr. cbn [fst snd]. exists [MClose s].
  cbn [mgr_run mgr_step]. unfold mgr_close. rewrite Ex, Es. split; [reflexivity|]. split; [|split; [cbn; lia|cbn; lia]].
  intros [X|[]]. injection X as ->. exists o. now left.
Qed.

Lemma moves_ack sid c s len : moves sid c (fst (lift_mgr c (mgr_data_ack (c_mgr c) s len))) (snd (lift_mgr c (mgr_data_ack (c_mgr c) s len))) 0.
Proof.
  unfold mgr_data_ack. destruct (find_sess (c_mgr c) s) as [x|] eqn:Ex; [|now apply moves_none].
  destruct (sess_step x (EDataAck len)) as [x' o] eqn:Es. unfold lift_mgr. cbn [fst snd]. exists [MDataAck s len].
  cbn [mgr_run mgr_step]. unfold mgr_data_ack. rewrite Ex, Es. split; [reflexivity|]. split; [|split; [|cbn; lia]].
  - intros [X|[]]. discriminate X.
  - cbn [map granted fold_right acks_for]. lia.
Qed.

Lemma moves_id sid c : moves sid c (snd (c_next_id c)) [] 0.
Proof.
  unfold c_next_id. destruct (next_id (g_factory (c_mgr c))) as [n f]. cbn [snd]. exists [MIds f]. split; [reflexivity|].
  split; [intros [X|[]]; discriminate X|]. split; [cbn; lia|]. cbn. lia.
Qed.

Lemma moves_send sid t c m : moves sid c (fst (send_control t c m)) (snd (send_control t c m)) 0.
Proof.
  unfold send_control. cbn [fst snd]. exists []. split; [destruct (c_task _); reflexivity|]. split; [intros []|]. split; [cbn; lia|].
  destruct (c_task _); cbn [c_messages set_ctask set_messages]; rewrite app_length; cbn; lia.
Qed.

Lemma moves_id_send sid t c m :
  moves sid c (fst (send_control t (snd (c_next_id c)) m)) (snd (send_control t (snd (c_next_id c)) m)) 0.
Proof. exact (moves_app sid _ _ _ _ _ 0 0 (moves_id sid c) (moves_send sid t _ m)). Qed.

Lemma moves_connect sid c get svc s :
  moves sid c (fst (lift_mgr c (mgr_connect (c_mgr c) get svc s))) (snd (lift_mgr c (mgr_connect (c_mgr c) get svc s))) 0.
Proof.
  destruct (mgr_connect (c_mgr c) get svc s) as [g o] eqn:E. cbn [lift_mgr fst snd].
  apply (moves_mgr sid c (MConnect get svc s)); [exact E|discriminate|discriminate|discriminate].
Qed.

Lemma moves_control sid t e c m r c' o : process_control t e c m = (r, c', o) -> moves sid c c' o 0.
Proof.
  intros H.
  assert (R : moves sid c c [] 0) by (now apply moves_none).
  assert (ES : forall x, moves sid c (fst x) (snd x) 0 ->
     (if c_established c then (None, fst x, snd x) else (Some OtherError, c, [])) = (r, c', o) -> moves sid c c' o 0).
  { intros x X Y. destruct (c_established c); injection Y as _ <- <-; [exact X|exact R]. }
  unfold process_control in H. cbv zeta in H. destruct (message_type (cm_type m)) eqn:T; destruct (cm_body m) eqn:B;
    first [ injection H as _ <- <-; exact R
      | exact (ES _ (moves_connect _ _ _ _ _) H)
      | exact (ES _ (moves_close _ _ _) H)
      | exact (ES _ (moves_ack _ _ _ _) H)
      | exact (ES _ (moves_send _ _ _ _) H)
      | pose proof (fun m' => ES _ (moves_id_send sid t c m')) as Q; destruct (c_next_id c) as [i1 c1]; cbn [snd] in Q; exact (Q _ H)
      | match type of H with context [XCmd ?x] => refine (ES (c, [XCmd x]) _ H) end;
        exists []; split; [reflexivity|]; split; [intros []|]; split; [cbn; lia|cbn; lia]
      | refine (ES (_, _) _ H); apply moves_none; cbn [fst]; match goal with |- context [if ?b then _ else _] => destruct b end; reflexivity
      | match type of H with context [process_ack ?a ?b ?d ?f] => destruct (process_ack a b d f) as [r1 c1] eqn:P end;
        injection H as _ <- <-; apply moves_none; unfold process_ack, handshake_ack in P;
        repeat match type of P with context [match ?x with _ => _ end] => destruct x end; injection P as _ <-; reflexivity ].
Qed.

Lemma moves_feed sid c i r c' o : feed_item c i = (r, c', o) -> moves sid c c' o 0.
Proof.
  intros H. destruct i as [t e m| |]; cbn [feed_item] in H; [|injection H as _ <- <-; now apply moves_none|injection H as _ <- <-; now apply moves_none].
  unfold process_message in H. destruct (is_closed c); [injection H as _ <- <-; now apply moves_none|].
  match type of H with match ?x with _ => _ end = _ => destruct x as [[r1 c1] o1] eqn:X end. injection H as _ <- <-.
  assert (M : moves sid c c1 o1 0).
  { destruct (m_service m =? 0).
    - destruct (cmsg_from_bytes (m_payload m)) as [cm| |]; [exact (moves_control _ _ _ _ _ _ _ _ X)|injection X as _ <- <-; now apply moves_none|injection X as _ <- <-; now apply moves_none].
    - destruct (c_established c); [|injection X as _ <- <-; now apply moves_none].
      destruct (mgr_send (c_mgr c) m) as [g og] eqn:E. cbn [lift_mgr] in X. injection X as _ <- <-.
      apply (moves_mgr sid c (MSend m)); [exact E|discriminate|discriminate|discriminate]. }
  destruct M as (mes & A & B & D & F). exists mes. split; [exact A|]. split; [|split; [exact D|exact F]].
  intros Q. destruct (B Q) as [oo Y]. exists oo. right. exact Y.
Qed.

Lemma moves_task sid c c' h n a b : moves sid c c' h n -> moves sid c (set_ctask c' a b) h n.
Proof. intros (m & A & B & D & E). exists m. repeat split; auto. Qed.

Definition goes_on (p : polled) : Prop := match p with PReady _ | PPending => True | _ => False end.

Lemma moves_ctx sid c p c' o : ctx_poll c = (p, c', o) -> goes_on p -> moves sid c c' o 1.
Proof.
  intros H G. unfold ctx_poll in H. destruct (is_closed c); [injection H as <- _ _; destruct G|].
  destruct (c_messages c) as [|m q] eqn:Q.
  - destruct (mgr_poll (c_mgr c)) as [g og] eqn:E. pose proof (moves_poll sid c g og E) as M. cbv zeta in H.
    destruct (polled_msg og); injection H as _ <- <-; apply moves_task; exact M.
  - injection H as _ <- <-. exists []. split; [reflexivity|]. split; [intros []|]. split; [cbn; lia|].
    cbn [c_messages set_ctask set_messages]. rewrite Q. cbn. lia.
Qed.

Lemma moves_loop sid items : forall c p c' o, client_loop c items = (p, c', o) -> goes_on p -> moves sid c c' o 1.
Proof.
  induction items as [|i items IH]; intros c p c' o H G; cbn [client_loop] in H; destruct (ctx_poll c) as [[p1 c1] o1] eqn:E.
  - destruct p1; injection H as <- <- <-; exact (moves_ctx _ _ _ _ _ E G).
  - destruct p1; try (injection H as <- <- <-; exact (moves_ctx _ _ _ _ _ E G)).
    destruct (feed_item c1 i) as [[r c2] o2] eqn:F. destruct r; [injection H as <- _ _; destruct G|].
    destruct (client_loop c2 items) as [[p3 c3] o3] eqn:L. injection H as <- <- <-.
    pose proof (moves_ctx sid _ _ _ _ E Logic.I) as M1. pose proof (moves_feed sid _ _ _ _ _ F) as M2. pose proof (IH _ _ _ _ L G) as M3.
    exact (moves_app _ _ _ _ _ _ 0 1 (moves_less _ _ _ _ _ M1) (moves_app _ _ _ _ _ _ 0 1 M2 M3)).
Qed.

Lemma moves_client sid c items p c' o : client_poll c items = (p, c', o) -> goes_on p -> moves sid c c' o 1.
Proof.
  intros H G. unfold client_poll in H. destruct items as [|i items]; [exact (moves_loop _ _ _ _ _ _ H G)|].
  destruct (feed_item c i) as [[r c1] o1] eqn:F. destruct r; [injection H as <- _ _; destruct G|].
  destruct (client_loop c1 items) as [[p2 c2] o2] eqn:L. injection H as <- <- <-.
  exact (moves_app _ _ _ _ _ _ 0 1 (moves_feed _ _ _ _ _ _ F) (moves_loop _ _ _ _ _ _ L G)).
Qed.

Lemma moves_time sid t c v0 v1 v2 r c' o : time_event t c v0 v1 v2 = (r, c', o) -> moves sid c c' o 0.
Proof.
  intros H. unfold time_event in H.
  match type of H with match ?x with _ => _ end = _ => destruct x as [c2 o2] eqn:X end. injection H as _ <- <-.
  destruct (c_established c); [|injection X as <- <-; now apply moves_none].
  match type of X with match ?x with _ => _ end = _ => destruct x as [c3 o3] eqn:Y end.
  match type of X with match ?x with _ => _ end = _ => destruct x as [c4 o4] eqn:Z end. injection X as <- <-.
  assert (PP : forall d d', c_mgr d = c_mgr d' -> c_messages d = c_messages d' -> forall h n, moves sid c d h n -> moves sid c d' h n).
  { intros d d' A B h n (m & M). rewrite A, B in M. exists m. exact M. }
  apply (moves_app sid c c3 c4 o3 o4 0 0).
  - destruct (PING_PERIOD <=? t - c_last_ping c)%Z; [|injection Y as <- <-; now apply moves_none].
    unfold send_ping, send_unconfirmed in Y. pose proof (moves_id sid c) as MI. destruct (c_next_id c) as [n c1]. cbn [snd] in MI.
    match type of Y with context [send_control t ?cc ?mm] => pose proof (moves_send sid t cc mm) as MS; destruct (send_control t cc mm) as [d od] end.
    injection Y as <- <-. cbn [fst snd] in MS. refine (PP d (set_last_ping d t) eq_refl eq_refl _ 0%nat _).
    assert (MS' : moves sid c1 d od 0) by (destruct MS as (mm & MM); exists mm; exact MM).
    exact (moves_app _ _ _ _ _ _ 0 0 MI MS').
  - destruct (UPDATE_CHECK_PERIOD <=? t - c_last_check c3)%Z; [|injection Z as <- <-; now apply moves_none].
    unfold check_for_updates, send_update in Z. destruct (c_version c3 =? v_version v0); [injection Z as <- <-; now apply moves_none|].
    cbv zeta in Z. pose proof (moves_id sid c3) as MI. destruct (c_next_id c3) as [n c1]. cbn [snd] in MI.
    match type of Z with context [send_control t ?cc ?mm] => pose proof (moves_send sid t cc mm) as MS; destruct (send_control t cc mm) as [d od] end.
    injection Z as <- <-. cbn [fst snd] in MS.
    assert (MS' : moves sid c1 (set_last_check d t) od 0) by (destruct MS as (mm & MM); exists mm; exact MM).
    exact (moves_app _ _ _ _ _ _ 0 0 MI MS').
Qed.

Lemma moves_step sid k e k' o :
  k_result k = None -> conn_step k e = (k', o) -> k_result k' = None -> moves sid (k_ctx k) (k_ctx k') o (if is_poll e then 1 else 0).
Proof.
  intros R H R'. unfold conn_step in H. rewrite R in H. destruct e as [items|t a b d| |s te]; cbn [is_poll].
  - destruct (client_poll (k_ctx k) items) as [[p c1] o1] eqn:E.
    destruct p; injection H as <- <-; cbn [k_result] in R'; try discriminate R'; cbn [k_ctx].
    + replace 1%nat with (1 + 0)%nat by reflexivity. apply (moves_app _ _ c1); [exact (moves_client _ _ _ _ _ _ E Logic.I)|].
      exists []. split; [reflexivity|]. split; [intros []|]. split; [cbn; lia|cbn; lia].
    + exact (moves_client _ _ _ _ _ _ E Logic.I).
  - destruct (is_closed (k_ctx k)); [injection H as <- <-; discriminate R'|].
    destruct (time_event t (k_ctx k) a b d) as [[r c1] o1] eqn:E. injection H as <- <-. cbn [k_ctx].
    destruct (moves_time sid _ _ _ _ _ _ _ _ E) as (mes & A & B & D & F). exists mes. split; [exact A|]. split; [|split; [exact D|exact F]].
    intros Q. destruct (B Q) as [oo Y]. exists oo. right. exact Y.
  - injection H as <- <-. discriminate R'.
  - destruct (mgr_step (c_mgr (k_ctx k)) (MTransport s te)) as [g og] eqn:E. cbn [lift_mgr] in H. injection H as <- <-. cbn [k_ctx].
    apply (moves_mgr sid (k_ctx k) (MTransport s te)); [exact E|discriminate|discriminate|discriminate].
Qed.

Lemma moves_run sid es : forall k k' o,
  conn_run k es = (k', o) -> k_result k' = None -> moves sid (k_ctx k) (k_ctx k') o (client_polls es).
Proof.
  induction es as [|e es IH]; intros k k' o H R; cbn [conn_run] in H.
  - injection H as <- <-. now apply moves_none.
  - destruct (conn_step k e) as [k1 o1] eqn:E1. destruct (conn_run k1 es) as [k2 o2] eqn:E2. injection H as -> <-.
    assert (R1 : k_result k1 = None).
    { destruct (k_result k1) eqn:X; [|reflexivity]. exfalso. pose proof (result_stays es k1) as Y. rewrite X, E2 in Y. apply Y; [discriminate|exact R]. }
    assert (R0 : k_result k = None).
    { destruct (k_result k) eqn:X; [|reflexivity]. exfalso. pose proof (result_stays [e] k) as Y. cbn [conn_run] in Y. rewrite X, E1 in Y. apply Y; [discriminate|exact R1]. }
    pose proof (moves_app _ _ _ _ _ _ _ _ (moves_step sid _ _ _ _ R0 E1 R1) (IH _ _ _ E2 R)) as M.
    unfold client_polls in *. cbn [filter]. destruct (is_poll e); exact M.
Qed.

Lemma turn t i v1 v2 es1 es2 k1 h1 k2 h2 sid s :
  connection t i v1 v2 es1 = (k1, h1) -> conn_run k1 es2 = (k2, h2) -> k_result k2 = None ->
  session k1 sid = Some s -> has_report s -> ~ hung_up sid h2 -> s_incap s + granted sid h2 < 2 ^ 64 -> ~ had_turn sid h2 ->
  (client_polls es2 <= length (c_messages (k_ctx k1)) + length (g_queue (c_mgr (k_ctx k1))) + position sid (g_order (c_mgr (k_ctx k1)))
                       + length (produced h2) + rejections h2)%nat.
Proof.
  intros H1 H2 R2 L P NH G NS.
  assert (R1 : k_result k1 = None).
  { destruct (k_result k1) eqn:X; [|reflexivity]. exfalso. pose proof (result_stays es2 k1) as Y. rewrite X, H2 in Y. apply Y; [discriminate|exact R2]. }
  destruct (connection_manager _ _ _ _ _ _ _ H1 R1) as [m1 E1].
  destruct (moves_run sid es2 k1 k2 h2 H2 R2) as (mes & A & B & D & E).
  assert (W : (polls mes <= length (g_queue (c_mgr (k_ctx k1))) + position sid (g_order (c_mgr (k_ctx k1))) + queued (manager_history h2))%nat).
  { refine (bounded_wait _ _ _ _ _ _ sid s mes _ _ E1 L P A _ _ _); [intros X; exact (NH (B X))|lia|].
    unfold had_turn in NS. destruct (existsb _ _); [now destruct NS|reflexivity]. }
  unfold rejections. lia.
Qed.

(** ** A server that says nothing *)
Definition quiet_mgr (x : mobs) : Prop :=
  match x with OSess _ EClose _ | OSess _ (EDataAck _) _ | OSess _ (EPush _) _ | OQueued _ | OOpen _ _ _ _ => False | _ => True end.

Lemma quiet_loop n : forall g, Forall quiet_mgr (snd (poll_loop n g)).
Proof.
  induction n as [|n IH]; intros g; [constructor|]. cbn [poll_loop]. destruct (g_order g) as [|sid rest]; [apply IH|].
  cbv zeta. destruct (find_sess (set_order g rest) sid) as [s|]; [|apply IH].
  destruct (sess_take _ s) as [[[tk s'] f'] o]. destruct tk;
    first [ match goal with |- context [poll_loop n ?x] => specialize (IH x); destruct (poll_loop n x) as [[r g3] os] end;
            constructor; [exact Logic.I|exact IH]
          | destruct (create_hup _ _ _); repeat constructor
          | repeat constructor ].
Qed.

Lemma quiet_poll g : Forall quiet_mgr (snd (mgr_poll g)).
Proof.
  unfold mgr_poll. destruct (g_queue g); [|repeat constructor]. pose proof (quiet_loop (length (g_order g)) g) as Q.
  destruct (poll_loop _ g) as [[[|] g1] o]; exact Q.
Qed.

Definition quiet (h : list cobs) : Prop := Forall (fun x => match x with XMgr m => quiet_mgr m | XRecv _ _ => False | _ => True end) h.

Lemma quiet_lift o : Forall quiet_mgr o -> quiet (map XMgr o).
Proof. intros H. apply Forall_map. exact H. Qed.
Lemma quiet_app a b : quiet a -> quiet b -> quiet (a ++ b).
Proof. intros A B. apply Forall_app. split; assumption. Qed.

Lemma produced_lift o : produced (map XMgr o) = [].
Proof. induction o as [|x o IH]; [reflexivity|]. exact IH. Qed.

Lemma quiet_time t c v0 v1 v2 r c' o :
  time_event t c v0 v1 v2 = (r, c', o) -> quiet o /\ (length (produced o) <= 2)%nat.
Proof.
  intros H. unfold time_event in H.
  match type of H with match ?x with _ => _ end = _ => destruct x as [c2 o2] eqn:X end. injection H as _ <- <-.
  destruct (c_established c); [|injection X as <- <-; split; [constructor|cbn; lia]].
  match type of X with match ?x with _ => _ end = _ => destruct x as [c3 o3] eqn:Y end.
  match type of X with match ?x with _ => _ end = _ => destruct x as [c4 o4] eqn:Z end. injection X as <- <-.
  assert (A : quiet o3 /\ (length (produced o3) <= 1)%nat).
  { destruct (PING_PERIOD <=? t - c_last_ping c)%Z; [|injection Y as <- <-; split; [constructor|cbn; lia]].
    unfold send_ping, send_unconfirmed, send_control in Y. destruct (c_next_id c) as [n c1]. injection Y as _ <-. split; [repeat constructor|cbn; lia]. }
  assert (B : quiet o4 /\ (length (produced o4) <= 1)%nat).
  { destruct (UPDATE_CHECK_PERIOD <=? t - c_last_check c3)%Z; [|injection Z as <- <-; split; [constructor|cbn; lia]].
    unfold check_for_updates, send_update in Z. destruct (c_version c3 =? v_version v0); [injection Z as <- <-; split; [constructor|cbn; lia]|].
    unfold send_control in Z. cbv zeta in Z. destruct (c_next_id c3) as [n c1]. injection Z as _ <-. split; [repeat constructor|cbn; lia]. }
  split; [apply quiet_app; [apply A|apply B]|]. rewrite produced_app, app_length. lia.
Qed.

Lemma quiet_step k e k' o : conn_step k e = (k', o) -> no_input e -> quiet o /\ (length (produced o) <= 2 * (if is_wakeup e then 1 else 0))%nat.
Proof.
  intros H NI. unfold conn_step in H. destruct (k_result k); [injection H as _ <-; split; [constructor|cbn; lia]|].
  destruct e as [items|t a b d| |s te]; cbn [is_wakeup no_input] in *.
  - destruct items; [|destruct NI]. cbn [client_poll client_loop] in H.
    assert (Q : quiet (snd (ctx_poll (k_ctx k))) /\ produced (snd (ctx_poll (k_ctx k))) = []).
    { unfold ctx_poll. destruct (is_closed (k_ctx k)); [split; [constructor|reflexivity]|]. destruct (c_messages (k_ctx k)); [|split; [constructor|reflexivity]].
      pose proof (quiet_poll (c_mgr (k_ctx k))) as Q. destruct (mgr_poll _) as [g og]. cbv zeta. cbn [snd] in Q.
      destruct (polled_msg og); cbn [snd]; (split; [apply quiet_lift; exact Q|apply produced_lift]). }
    destruct (ctx_poll (k_ctx k)) as [[p c1] o1]. cbn [snd] in Q. destruct Q as [Q1 Q2].
    destruct p; injection H as _ <-; rewrite ?produced_app, ?Q2; (split; [|cbn; lia]); try exact Q1. apply quiet_app; [exact Q1|repeat constructor].
  - destruct (is_closed (k_ctx k)); [injection H as _ <-; split; [constructor|cbn; lia]|].
    destruct (time_event t (k_ctx k) a b d) as [[r c1] o1] eqn:E. injection H as _ <-. destruct (quiet_time _ _ _ _ _ _ _ _ E) as [A B].
    split; [constructor; [exact Logic.I|exact A]|]. cbn [produced flat_map app]. fold (produced o1). lia.
  - injection H as _ <-. split; [constructor|cbn; lia].
  - cbn [mgr_step] in H. destruct (find_sess _ s) as [x|]; [|injection H as _ <-; split; [constructor|cbn; lia]].
    destruct (sess_step x (sev_of te)) as [x' oo]. injection H as _ <-. split; [|cbn; lia]. repeat constructor. destruct te; exact Logic.I.
Qed.

Lemma quiet_run es : forall k k' o, conn_run k es = (k', o) -> Forall no_input es -> quiet o /\ (length (produced o) <= 2 * wakeups es)%nat.
Proof.
  induction es as [|e es IH]; intros k k' o H NI; cbn [conn_run] in H; [injection H as _ <-; split; [constructor|cbn; lia]|].
  destruct (conn_step k e) as [k1 o1] eqn:E1. destruct (conn_run k1 es) as [k2 o2] eqn:E2. injection H as _ <-.
  inversion NI as [|? ? N1 N2]; subst. destruct (quiet_step _ _ _ _ E1 N1) as [A1 B1]. destruct (IH _ _ _ E2 N2) as [A2 B2].
  split; [apply quiet_app; assumption|]. rewrite produced_app, app_length. unfold wakeups in *. cbn [filter]. destruct (is_wakeup e); cbn [length]; lia.
Qed.

Lemma quiet_facts sid h : quiet h -> ~ hung_up sid h /\ granted sid h = 0 /\ rejections h = 0%nat.
Proof.
  intros Q. split; [|split].
  - intros [o H]. unfold quiet in Q. rewrite Forall_forall in Q. exact (Q _ H).
  - induction Q as [|x h X Q IH]; [reflexivity|]. cbn [granted fold_right]. fold (granted sid h). rewrite IH.
    destruct x as [| | |m| |]; try reflexivity. destruct m as [|s e oo| | |]; try reflexivity. destruct e; try reflexivity. destruct X.
  - unfold rejections, queued. induction Q as [|x h X Q IH]; [reflexivity|]. change (x :: h) with ([x] ++ h). rewrite mhist_app, filter_app, app_length, IH.
    destruct x as [| | |m| |]; try reflexivity. destruct m as [|s e oo| | |]; try reflexivity. destruct X.
Qed.

Lemma incap_small v sid W es : W < 2 ^ 64 -> s_incap (fst (sess_run (sess_new v sid W) es)) < 2 ^ 64.
Proof.
  intros HW. assert (X : forall l s, s_incap s < 2 ^ 64 -> s_incap (fst (sess_run s l)) < 2 ^ 64).
  { induction l as [|e l IH]; intros s H; [exact H|]. cbn [sess_run]. pose proof (incap_step s e) as Y. destruct (sess_step s e) as [s1 o1] eqn:E.
    assert (s_incap s1 < 2 ^ 64) as H1.
    { destruct e; lia. }
    specialize (IH s1 H1). destruct (sess_run s1 l). exact IH. }
  apply X. exact HW.
Qed.

Lemma turn_quiet t i v1 v2 es1 es2 k1 h1 k2 h2 sid s :
  connection t i v1 v2 es1 = (k1, h1) -> conn_run k1 es2 = (k2, h2) -> k_result k2 = None ->
  session k1 sid = Some s -> has_report s -> Forall no_input es2 -> ~ had_turn sid h2 ->
  (client_polls es2 <= length (c_messages (k_ctx k1)) + length (g_queue (c_mgr (k_ctx k1))) + position sid (g_order (c_mgr (k_ctx k1)))
                       + 2 * wakeups es2)%nat.
Proof.
  intros H1 H2 R2 L P NI NT. destruct (quiet_run es2 k1 k2 h2 H2 NI) as [Q B]. destruct (quiet_facts sid h2 Q) as (F1 & F2 & F3).
  assert (R1 : k_result k1 = None).
  { destruct (k_result k1) eqn:X; [|reflexivity]. exfalso. pose proof (result_stays es2 k1) as Y. rewrite X, H2 in Y. apply Y; [discriminate|exact R2]. }
  assert (I64 : s_incap s < 2 ^ 64).
  { destruct (connection_manager _ _ _ _ _ _ _ H1 R1) as [m1 E1]. pose proof (mgr_run_inv 65536 (id_gateway i) 0 m1) as I1. rewrite E1 in I1.
    destruct (ho_sess _ _ _ (si_hist _ _ _ I1) sid s L) as [sv Q1].
    pose proof (incap_small sv sid 65536 (map fst (since_open sid (manager_history h1))) ltac:(reflexivity)) as Y. rewrite Q1 in Y. exact Y. }
  pose proof (turn _ _ _ _ _ _ _ _ _ _ _ _ H1 H2 R2 L P F1 ltac:(lia) NT). lia.
Qed.

(** ** A server that keeps asking *)
Definition ask8 : amsg := control_msg [0; 60; 0; 1].
Definition start8 : list kev :=
  session_events 0 ++ [KTransport 7 TConnected; KTransport 7 (TPolled (RdData [9]) WrPending); KPoll [SMsg 3%Z (env0 view9) ask8]].
Definition round8 : kev := KPoll [SMsg 3%Z (env0 view9) ask8].
Definition conn8 : conn := fst (connection 0%Z race_id view9 view9 start8).

Lemma round8_runs : conn_step conn8 round8 =
  (conn8, [XRecv (env0 view9) ask8; XQueue 3%Z (mk_ack 60 0); XSent (amsg_of_cmsg (mk_ack 60 0))]).
Proof. vm_compute. reflexivity. Qed.

Lemma rounds8_run n : exists h, conn_run conn8 (repeat round8 n) = (conn8, h) /\
  received h = repeat (env0 view9, ask8) n /\ ClientSpec.sent h = repeat (amsg_of_cmsg (mk_ack 60 0)) n.
Proof.
  induction n as [|n (h & E & A & B)]; [exists []; repeat split|]. cbn [repeat conn_run]. rewrite round8_runs, E. eexists. split; [reflexivity|].
  rewrite received_app, ClientInv.sent_app, A, B. split; reflexivity.
Qed.

Lemma never_turn : forall n : nat, exists (c : conn) (h1 h2 : list cobs) (s : sess),
  connection 0%Z race_id view9 view9 start8 = (c, h1) /\ conn_run c (repeat round8 n) = (c, h2) /\ k_result c = None /\
  session c 7 = Some s /\ s_input s = [9] /\ s_incap s = 65536 /\ has_report s /\
  length (received h2) = n /\ ClientSpec.sent h2 = repeat (amsg_of_cmsg (mk_ack 60 0)) n /\ client_polls (repeat round8 n) = n.
Proof.
  intros n. destruct (rounds8_run n) as (h & E & A & B). destruct (session conn8 7) as [s|] eqn:Es; [|vm_compute in Es; discriminate Es].
  exists conn8, (snd (connection 0%Z race_id view9 view9 start8)), h, s.
  split; [unfold conn8; now destruct (connection _ _ _ _ _)|]. split; [exact E|]. split; [vm_compute; reflexivity|]. split; [exact Es|].
  assert (X : s_input s = [9] /\ s_incap s = 65536) by (vm_compute in Es; injection Es as <-; split; reflexivity). destruct X as [X Y].
  split; [exact X|]. split; [exact Y|]. split; [right; left; rewrite X, Y; split; [discriminate|reflexivity]|].
  split; [rewrite A; apply repeat_length|]. split; [exact B|]. clear. induction n as [|n IH]; [reflexivity|]. cbn [repeat]. unfold client_polls in *. cbn [filter is_poll round8]. cbn [length]. now rewrite IH.
Qed.
