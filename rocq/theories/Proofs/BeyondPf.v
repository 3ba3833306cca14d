(** Proof of C159: a message beyond the window. *)
From Coq Require Import NArith ZArith List Bool Lia ZifyBool ZifyNat ZifyN.
From Verif.Model Require Import Bytes Frame Service Control Alist Session Manager Client.
From Verif.Spec Require Import ManagerSpec ClientSpec WireSpec SessionSpec FairSpec HangSpec WindowSpec.
From Verif.Proofs Require Import BytesFacts AlistFacts ManagerProofs ManagerPropsPf ClientInv ClientPropsPf ClientPropsPf2 SessionProofs ProgressPf ProgressLift FairPf FlowPf ChatPf HangPf ConfirmPf.
Import ListNotations.
Local Open Scope N_scope.

(** ** A session that has ended writes nothing *)
Definition dead (g : mgr) (sid : N) : Prop := match find_sess g sid with Some s => s_closed s = true | None => True end.
Definition unwritten (sid : N) (x : mobs) : Prop :=
  match x with OSess s _ o => s = sid -> written o = [] | OOpen s _ _ _ => s <> sid | _ => True end.

Lemma take_fields f s : let '(_, s', _, o) := sess_take f s in s_closed s' = s_closed s /\ s_output s' = s_output s /\ s_outcap s <= s_outcap s' /\ written o = [].
Proof.
  unfold sess_take. destruct (N.ltb_spec 0 (s_written s)) as [W|W].
  - unfold next_id. cbn [s_closed s_output s_outcap with_caps]. repeat split. lia.
  - cbv zeta. set (s2 := with_input _ _). set (s3 := if nlen (s_input s2) <? BUFFER_CAPACITY then wake_tr s2 else s2).
    assert (E : s_closed s3 = s_closed s /\ s_output s3 = s_output s /\ s_outcap s3 = s_outcap s).
    { assert (E2 : s_closed s2 = s_closed s /\ s_output s2 = s_output s /\ s_outcap s2 = s_outcap s) by (repeat split).
      unfold s3. destruct (_ <? _); [|exact E2]. unfold wake_tr. destruct (s_tr_waker s2); exact E2. }
    clearbody s3. destruct E as (E1 & E2 & E3). destruct (firstn _ _).
    + destruct (s_closed s3) eqn:C; [destruct (s_error s3)|]; cbn [s_closed s_output s_outcap with_closed with_mgr]; rewrite ?C; repeat split; try assumption; lia.
    + repeat split; try assumption; lia.
Qed.

Lemma loop_dead n sid : forall g, dead g sid -> let '(_, g', o) := poll_loop n g in dead g' sid /\ Forall (unwritten sid) o.
Proof.
  induction n as [|n IH]; intros g D; cbn [poll_loop]; [split; [exact D|constructor]|]. destruct (g_order g) as [|x rest]; [apply IH, D|]. cbv zeta.
  change (find_sess (set_order g rest) x) with (find_sess g x). destruct (find_sess g x) as [s|] eqn:F; [|apply IH; exact D].
  pose proof (take_fields (g_factory (set_order g rest)) s) as T. destruct (sess_take _ s) as [[[t s'] f'] o] eqn:Et. destruct T as (T1 & _ & _ & T2).
  assert (DS : forall gg, g_sessions gg = ainsert x s' (g_sessions g) -> dead gg sid).
  { intros gg E. unfold dead, find_sess. rewrite E. destruct (N.eq_dec x sid) as [->|N].
    - rewrite insert_same. unfold dead in D. rewrite F in D. congruence.
    - rewrite insert_other by congruence. exact D. }
  assert (DR : forall gg, g_sessions gg = aremove x (g_sessions g) -> dead gg sid).
  { intros gg E. unfold dead, find_sess. rewrite E. destruct (N.eq_dec x sid) as [->|N].
    - rewrite remove_same. exact I.
    - rewrite remove_other by congruence. exact D. }
  destruct t; unfold create_hup, next_id.
  - split; [apply DS; reflexivity|]. repeat constructor. intros _. exact T2.
  - split; [apply DR; reflexivity|]. repeat constructor. intros _. exact T2.
  - split; [apply DR; reflexivity|]. repeat constructor. intros _. exact T2.
  - match goal with |- context [poll_loop n ?gg] => specialize (IH gg (DS gg eq_refl)); destruct (poll_loop n gg) as [[r g3] os] end.
    destruct IH as [A B]. split; [exact A|]. constructor; [intros _; exact T2|exact B].
Qed.

Lemma dead_run sid mes : forall g g' h, mgr_run g mes = (g', h) -> Forall quiet_mgr h -> dead g sid -> Forall (unwritten sid) h.
Proof.
  induction mes as [|e mes IH]; intros g g' h H Q D; cbn [mgr_run] in H; [injection H as _ <-; constructor|].
  destruct (mgr_step g e) as [g1 o1] eqn:E1. destruct (mgr_run g1 mes) as [g2 o2] eqn:E2. injection H as _ <-. apply Forall_app in Q as [Q1 Q2].
  enough (S : dead g1 sid /\ Forall (unwritten sid) o1) by (apply Forall_app; split; [apply S|exact (IH _ _ _ E2 Q2 (proj1 S))]).
  clear IH E2. destruct e as [get svc k0|m|k0|k0 len| |k0 t|ids]; cbn [mgr_step] in E1.
  - unfold mgr_connect in E1. destruct (connect_inner g get svc k0) as [[[ty mac] a]|].
    + cbv zeta in E1. injection E1 as _ <-. inversion Q1 as [|? ? X _]; destruct X.
    + destruct (create_hup g k0 EC_CONNECTION_ERROR). injection E1 as _ <-. inversion Q1 as [|? ? X _]; destruct X.
  - unfold mgr_send in E1. cbv zeta in E1. destruct (find_sess g (m_session m)) as [x|].
    + destruct (sess_step x _) as [x' oo]. injection E1 as _ <-. inversion Q1 as [|? ? X _]; destruct X.
    + destruct (create_hup g _ EC_CONNECTION_ERROR). injection E1 as _ <-. inversion Q1 as [|? ? X _]; destruct X.
  - unfold mgr_close in E1. destruct (find_sess g k0) as [x|]; [|injection E1 as <- <-; split; [exact D|constructor]].
    destruct (sess_step x EClose) as [x' oo]. injection E1 as _ <-. inversion Q1 as [|? ? X _]; destruct X.
  - unfold mgr_data_ack in E1. destruct (find_sess g k0) as [x|]; [|injection E1 as <- <-; split; [exact D|constructor]].
    destruct (sess_step x _) as [x' oo]. injection E1 as _ <-. inversion Q1 as [|? ? X _]; destruct X.
  - unfold mgr_poll in E1. destruct (g_queue g) as [|m q].
    + pose proof (loop_dead (length (g_order g)) sid g D) as L. destruct (poll_loop (length (g_order g)) g) as [[r gg] oo].
      destruct r; injection E1 as <- <-; exact L.
    + injection E1 as <- <-. split; [exact D|]. repeat constructor.
  - destruct (find_sess g k0) as [x|] eqn:F; [|injection E1 as <- <-; split; [exact D|constructor]].
    destruct (sess_step x (sev_of t)) as [x' oo] eqn:Es. injection E1 as <- <-. unfold dead, find_sess. gsimp.
    destruct (N.eq_dec k0 sid) as [->|N].
    + unfold dead in D. rewrite F in D. rewrite insert_same. pose proof (closed_transport x t D) as T. rewrite Es in T. cbn [fst] in T.
      split; [destruct T as [-> _]; exact D|]. repeat constructor. intros _.
      destruct t as [| |r w| |]; cbn [sev_of sess_step] in Es.
      * destruct (s_phase x); injection Es as _ <-; reflexivity.
      * destruct (s_phase x); injection Es as _ <-; reflexivity.
      * unfold transport_poll in Es. destruct (s_phase x); [injection Es as _ <-; reflexivity| |injection Es as _ <-; reflexivity].
        cbn [s_closed with_tr] in Es. rewrite D in Es. injection Es as _ <-. reflexivity.
      * destruct (s_wait_rd x); injection Es as _ <-; reflexivity.
      * destruct (s_wait_wr x); injection Es as _ <-; reflexivity.
    + rewrite insert_other by congruence. split; [exact D|]. repeat constructor. intros X. congruence.
  - injection E1 as <- <-. split; [exact D|constructor].
Qed.

Lemma unwritten_history sid h : Forall (unwritten sid) (manager_history h) -> forall acc, fold_left (to_service_step sid) h acc = acc.
Proof.
  induction h as [|x h IH]; intros F acc; [reflexivity|]. change (x :: h) with ([x] ++ h) in F. rewrite mhist_app in F. apply Forall_app in F as [F1 F2].
  cbn [fold_left]. rewrite (IH F2). destruct x as [| | |m| |]; try reflexivity. cbn [manager_history flat_map app] in F1. inversion F1 as [|? ? X _]; subst.
  destruct m; cbn [to_service_step unwritten] in *; try reflexivity.
  - destruct (N.eqb_spec sid0 sid); [contradiction|reflexivity].
  - destruct (N.eqb_spec sid0 sid) as [->|]; [rewrite (X eq_refl); apply app_nil_r|reflexivity].
Qed.

(** ** The hang-up from any state with the invariant of the manager *)
Lemma told_core k1 es2 k2 h2 sid s1 :
  (forall x, is_live (c_mgr (k_ctx k1)) x = true -> In x (g_order (c_mgr (k_ctx k1)))) ->
  conn_run k1 es2 = (k2, h2) -> k_result k2 = None -> Forall no_input es2 ->
  session k1 sid = Some s1 -> s_closed s1 = true -> (before_end k1 sid s1 + 2 * wakeups es2 < client_polls es2)%nat ->
  (exists m, In (XSent m) h2 /\ hang_up sid (if s_error s1 then 3 else 0) m) /\ forall acc, fold_left (to_service_step sid) h2 acc = acc.
Proof.
  intros I H2 R2 NI S1 C1 L. destruct (quiet_run es2 k1 k2 h2 H2 NI) as [Q B]. pose proof (quiet_history h2 Q) as QM.
  destruct (FairPf.moves_run sid es2 k1 k2 h2 H2 R2) as (mes & A & _ & _ & E). split.
  - assert (T : told sid s1 (manager_history h2)).
    { refine (closing mes _ sid s1 _ _ I S1 C1 A QM _). unfold before_end in L. lia. }
    pose proof (run_next es2 k1 k2 h2 H2 NI) as SN.
    destruct T as (a & m & b & T1 & T2 & _). destruct (mhist_split h2 a _ b T1) as (X & Y & HX & MX & _). destruct (SN X _ m Y HX) as [Y' ->].
    exists m. split; [rewrite HX; apply in_or_app; right; right; now left|exact T2].
  - apply unwritten_history. refine (dead_run sid mes _ _ _ A QM _). unfold dead. unfold session in S1. rewrite S1. exact C1.
Qed.

(** ** The message *)
Lemma push_beyond s p : s_closed s = false -> s_outcap s < nlen p -> sess_step s (EPush p) = (sess_set_error s, []).
Proof. intros C L. cbn [sess_step]. unfold sess_push. rewrite C. destruct (N.ltb_spec (s_outcap s) (nlen p)); [reflexivity|lia]. Qed.

(** The context after the message, and what the poll then does. *)
Lemma poll_beyond k now e m sid s : k_result k = None -> session k sid = Some s -> s_closed s = false -> m_service m <> 0 -> m_session m = sid ->
  s_outcap s < nlen (m_payload m) -> is_closed (k_ctx k) = false -> c_established (k_ctx k) = true ->
  let k0 := {| k_ctx := Client.set_mgr (k_ctx k) (set_sess (c_mgr (k_ctx k)) sid (sess_set_error s)); k_result := None |} in
  let '(k1, o) := conn_step k0 (KPoll []) in
  conn_step k (KPoll [SMsg now e m]) = (k1, XRecv e m :: XMgr (OSess sid (EPush (m_payload m)) []) :: o).
Proof.
  intros R S C N0 N1 L IC ES. cbv zeta. unfold conn_step at 1. cbn [k_result k_ctx]. unfold client_poll.
  destruct (client_loop _ []) as [[p c2] o2] eqn:CL.
  assert (X : client_poll (k_ctx k) [SMsg now e m] = (p, c2, XRecv e m :: XMgr (OSess sid (EPush (m_payload m)) []) :: o2)).
  { unfold client_poll. cbn [feed_item]. unfold process_message. rewrite IC. apply N.eqb_neq in N0. rewrite N0, ES. unfold mgr_send. cbv zeta. rewrite N1.
    unfold session in S. rewrite S, (push_beyond s _ C L). cbn [lift_mgr]. rewrite CL. reflexivity. }
  unfold conn_step. rewrite R, X. destruct p; reflexivity.
Qed.

(** Otherwise the connection ends. *)
Lemma poll_fails k now e m : k_result k = None -> m_service m <> 0 -> k_result (fst (conn_step k (KPoll [SMsg now e m]))) = None ->
  is_closed (k_ctx k) = false /\ c_established (k_ctx k) = true.
Proof.
  intros R N0. unfold conn_step. rewrite R. cbn [client_poll feed_item]. unfold process_message. destruct (is_closed (k_ctx k)) eqn:IC.
  - cbn [client_loop]. unfold ctx_poll. rewrite IC. cbn. discriminate.
  - split; [reflexivity|]. apply N.eqb_neq in N0. rewrite N0 in H. destruct (c_established (k_ctx k)); [reflexivity|]. cbn in H. discriminate.
Qed.

Lemma beyond_told t i v1 v2 es1 k1 h1 now e m es2 k2 h2 sid s1 :
  connection t i v1 v2 es1 = (k1, h1) -> conn_run k1 (KPoll [SMsg now e m] :: es2) = (k2, h2) -> k_result k2 = None -> Forall no_input es2 ->
  session k1 sid = Some s1 -> s_closed s1 = false -> control_has_no_address h1 -> short_ids h1 -> m_service m <> 0 -> m_session m = sid ->
  65536 + confirmed sid h1 < nlen (data_in sid h1 ++ m_payload m) ->
  (length (c_messages (k_ctx k1)) + length (g_queue (c_mgr (k_ctx k1))) + 3 * length (g_order (c_mgr (k_ctx k1))) + 2 * wakeups es2 <= client_polls es2)%nat ->
  (exists x, In (XSent x) h2 /\ hang_up sid 3 x) /\ to_service sid (h1 ++ h2) = to_service sid h1.
Proof.
  intros H1 H2 R2 NI S1 C1 O1 O2 N0 N1 L P. cbn [conn_run] in H2. destruct (conn_step k1 (KPoll [SMsg now e m])) as [k' o1] eqn:E1. destruct (conn_run k' es2) as [k'' o2] eqn:E2.
  injection H2 as -> <-.
  assert (R' : k_result k' = None).
  { destruct (k_result k') eqn:X; [|reflexivity]. exfalso. pose proof (result_stays es2 k') as Y. rewrite X, E2 in Y. apply Y; [discriminate|exact R2]. }
  assert (R1 : k_result k1 = None).
  { destruct (k_result k1) eqn:X; [|reflexivity]. exfalso. unfold conn_step in E1. rewrite X in E1. injection E1 as <- _. congruence. }
  destruct (poll_fails k1 now e m R1 N0) as [IC ES]; [rewrite E1; exact R'|].
  pose proof (room _ _ _ _ _ _ _ sid s1 H1 R1 S1 C1 O1 O2) as RM. rewrite nlen_app in L.
  pose proof (poll_beyond k1 now e m sid s1 R1 S1 C1 N0 N1 ltac:(lia) IC ES) as PB. cbv zeta in PB.
  set (k0 := {| k_ctx := _; k_result := None |}) in PB. destruct (conn_step k0 (KPoll [])) as [k0' o0] eqn:E0. rewrite E1 in PB. injection PB as <- ->.
  assert (RUN : conn_run k0 (KPoll [] :: es2) = (k2, o0 ++ o2)) by (cbn [conn_run]; rewrite E0, E2; reflexivity).
  destruct (connection_manager _ _ _ _ _ _ _ H1 R1) as [m1 M1]. pose proof (mgr_run_inv 65536 (id_gateway i) 0 m1) as I. rewrite M1 in I. destruct I as [_ I _ _].
  assert (IN : In sid (g_order (c_mgr (k_ctx k1)))) by (apply I; unfold is_live; unfold session in S1; rewrite S1; reflexivity).
  destruct (error_fields s1 C1) as [F1 F2].
  assert (S' : session k0 sid = Some (sess_set_error s1)) by (unfold session, k0, find_sess; cbn [k_ctx c_mgr Client.set_mgr]; gsimp; apply insert_same).
  destruct (told_core k0 (KPoll [] :: es2) k2 (o0 ++ o2) sid (sess_set_error s1)) as [(x & X1 & X2) W].
  - exact (set_sess_order _ sid s1 _ S1 I).
  - exact RUN.
  - exact R2.
  - constructor; [exact Logic.I|exact NI].
  - exact S'.
  - exact F1.
  - change (client_polls (KPoll [] :: es2)) with (S (client_polls es2)). change (wakeups (KPoll [] :: es2)) with (wakeups es2).
    unfold before_end, k0. cbn [k_ctx c_messages c_mgr Client.set_mgr]. gsimp. pose proof (position_lt _ _ IN). pose proof (words_bound (sess_set_error s1)) as WB.
    pose proof (Nat.mul_le_mono_r _ _ (length (g_order (c_mgr (k_ctx k1)))) WB). lia.
  - rewrite F2 in X2. split.
    + exists x. split; [|exact X2]. cbn [app]. right. right. exact X1.
    + unfold to_service. rewrite fold_left_app. cbn [app fold_left to_service_step written flat_map]. rewrite N.eqb_refl.
      rewrite W. apply app_nil_r.
Qed.

(** ** The other sessions *)
Definition stays (s s' : sess) : Prop := s_closed s' = s_closed s /\ s_output s' = s_output s /\ s_outcap s <= s_outcap s'.
Lemma stays_refl s : stays s s.
Proof. repeat split. lia. Qed.
Lemma stays_trans a b c : stays a b -> stays b c -> stays a c.
Proof. intros (A1 & A2 & A3) (B1 & B2 & B3). repeat split; [congruence|congruence|lia]. Qed.

Lemma take_open f s : s_closed s = false -> match sess_take f s with (TkError, _, _, _) | (TkEnd, _, _, _) => False | _ => True end.
Proof.
  intros C. unfold sess_take. destruct (0 <? s_written s); [exact I|]. cbv zeta. set (s2 := with_input _ _).
  set (s3 := if nlen (s_input s2) <? BUFFER_CAPACITY then wake_tr s2 else s2).
  assert (E : s_closed s3 = false) by (unfold s3; destruct (_ <? _); [unfold wake_tr; destruct (s_tr_waker s2)|]; exact C).
  clearbody s3. destruct (firstn _ _); [|exact I]. rewrite E. exact I.
Qed.

Lemma loop_stays n other : forall g s, find_sess g other = Some s -> s_closed s = false ->
  let '(_, g', _) := poll_loop n g in exists s', find_sess g' other = Some s' /\ stays s s'.
Proof.
  induction n as [|n IH]; intros g s F C; cbn [poll_loop]; [exists s; split; [exact F|apply stays_refl]|]. destruct (g_order g) as [|x rest]; [apply IH; assumption|]. cbv zeta.
  change (find_sess (set_order g rest) x) with (find_sess g x). destruct (find_sess g x) as [sx|] eqn:Fx; [|apply IH; assumption].
  pose proof (take_fields (g_factory (set_order g rest)) sx) as T. pose proof (take_open (g_factory (set_order g rest)) sx) as TO.
  destruct (sess_take _ sx) as [[[t s'] f'] o] eqn:Et. destruct T as (T1 & T2 & T3 & _).
  assert (DS : forall gg, g_sessions gg = ainsert x s' (g_sessions g) -> exists s1, find_sess gg other = Some s1 /\ stays s s1).
  { intros gg E. unfold find_sess in *. rewrite E. destruct (N.eq_dec x other) as [->|N].
    - rewrite insert_same. exists s'. split; [reflexivity|]. assert (sx = s) by congruence. subst sx. repeat split; assumption.
    - rewrite insert_other by congruence. exists s. split; [exact F|apply stays_refl]. }
  assert (DR : match t with TkError | TkEnd => True | _ => False end -> forall gg, g_sessions gg = aremove x (g_sessions g) -> exists s1, find_sess gg other = Some s1 /\ stays s s1).
  { intros TT gg E. unfold find_sess in *. rewrite E. destruct (N.eq_dec x other) as [->|N].
    - assert (sx = s) by congruence. subst sx. specialize (TO C). destruct t; destruct TT; destruct TO.
    - rewrite remove_other by congruence. exists s. split; [exact F|apply stays_refl]. }
  destruct t; unfold create_hup, next_id.
  - apply DS. reflexivity.
  - apply (DR Logic.I). reflexivity.
  - apply (DR Logic.I). reflexivity.
  - match goal with |- context [poll_loop n ?gg] => destruct (DS gg eq_refl) as (s1 & A & B); specialize (IH gg s1 A); destruct (poll_loop n gg) as [[r g3] os] end.
    destruct IH as (s2 & D & E); [destruct B as [-> _]; exact C|]. exists s2. split; [exact D|exact (stays_trans _ _ _ B E)].
Qed.

Lemma poll_stays k other s : k_result k = None -> is_closed (k_ctx k) = false -> session k other = Some s -> s_closed s = false ->
  let '(k', _) := conn_step k (KPoll []) in k_result k' = None /\ exists s', session k' other = Some s' /\ stays s s'.
Proof.
  intros R IC S C. unfold conn_step. rewrite R. cbn [client_poll client_loop]. unfold ctx_poll. rewrite IC. destruct (c_messages (k_ctx k)).
  - assert (M : let '(g, _) := mgr_poll (c_mgr (k_ctx k)) in exists s', find_sess g other = Some s' /\ stays s s').
    { unfold mgr_poll. destruct (g_queue _); [|exists s; split; [exact S|apply stays_refl]].
      pose proof (loop_stays (length (g_order (c_mgr (k_ctx k)))) other (c_mgr (k_ctx k)) s S C) as X. destruct (poll_loop _ _) as [[r gg] oo]. destruct r; exact X. }
    destruct (mgr_poll _) as [g o]. destruct (polled_msg o); split; try reflexivity; exact M.
  - split; [reflexivity|]. exists s. split; [exact S|apply stays_refl].
Qed.

Lemma beyond_only t i v1 v2 es1 k1 h1 now e m sid s1 k2 h2 :
  connection t i v1 v2 es1 = (k1, h1) -> k_result k1 = None -> is_closed (k_ctx k1) = false -> c_established (k_ctx k1) = true ->
  session k1 sid = Some s1 -> s_closed s1 = false -> control_has_no_address h1 -> short_ids h1 -> m_service m <> 0 -> m_session m = sid ->
  65536 + confirmed sid h1 < nlen (data_in sid h1 ++ m_payload m) -> conn_step k1 (KPoll [SMsg now e m]) = (k2, h2) ->
  k_result k2 = None /\
  forall other s, other <> sid -> session k1 other = Some s -> s_closed s = false ->
    exists s', session k2 other = Some s' /\ s_closed s' = false /\ s_output s' = s_output s /\ s_outcap s <= s_outcap s'.
Proof.
  intros H1 R1 IC ES S1 C1 O1 O2 N0 N1 L E1.
  pose proof (room _ _ _ _ _ _ _ sid s1 H1 R1 S1 C1 O1 O2) as RM. rewrite nlen_app in L.
  pose proof (poll_beyond k1 now e m sid s1 R1 S1 C1 N0 N1 ltac:(lia) IC ES) as PB. cbv zeta in PB.
  set (k0 := {| k_ctx := _; k_result := None |}) in PB.
  assert (K : forall other s, session k0 other = Some s -> s_closed s = false -> k_result k2 = None /\ exists s', session k2 other = Some s' /\ stays s s').
  { intros other s F C. pose proof (poll_stays k0 other s eq_refl IC F C) as X. destruct (conn_step k0 (KPoll [])) as [k0' o0]. rewrite E1 in PB. injection PB as -> _. exact X. }
  split.
  - unfold conn_step in PB at 1. cbn [k0 k_result k_ctx client_poll client_loop] in PB. unfold ctx_poll in PB.
    change (is_closed (Client.set_mgr (k_ctx k1) (set_sess (c_mgr (k_ctx k1)) sid (sess_set_error s1)))) with (is_closed (k_ctx k1)) in PB. rewrite IC in PB.
    destruct (c_messages _); [destruct (mgr_poll _) as [g o]; destruct (polled_msg o)|]; rewrite E1 in PB; injection PB as -> _; reflexivity.
  - intros other s N F C.
    assert (F0 : session k0 other = Some s) by (unfold session, k0, find_sess in *; cbn [k_ctx c_mgr Client.set_mgr]; gsimp; rewrite insert_other by congruence; exact F).
    destruct (K other s F0 C) as (_ & s' & A & B1 & B2 & B3). exists s'. split; [exact A|]. split; [congruence|]. split; assumption.
Qed.
