(** Proof of C144. *)
From Coq Require Import NArith ZArith List Bool Lia ZifyBool ZifyNat ZifyN.
From Verif.Model Require Import Bytes Frame Service Control Alist Session Manager Client.
From Verif.Spec Require Import ManagerSpec ClientSpec WireSpec SessionSpec ProgressSpec FairSpec FlowSpec ChatSpec.
From Verif.Proofs Require Import AlistFacts ControlProofs ManagerProofs ManagerPropsPf ManagerPropsPf2 ClientInv ClientPropsPf ClientPropsPf2 SessionProofs ProgressPf ProgressLift FairPf FlowPf.
From Verif.Proofs Require WireFinal.
Import ListNotations.
Local Open Scope N_scope.

(** ** One session *)
Lemma wt_f s : s_closed (wake_tr s) = s_closed s /\ s_input (wake_tr s) = s_input s /\ s_incap (wake_tr s) = s_incap s /\ s_phase (wake_tr s) = s_phase s /\
  s_output (wake_tr s) = s_output s /\ s_written (wake_tr s) = s_written s /\ s_outcap (wake_tr s) = s_outcap s.
Proof. unfold wake_tr. destruct (s_tr_waker s); repeat split. Qed.
Lemma wm_f s : s_closed (wake_mgr s) = s_closed s /\ s_input (wake_mgr s) = s_input s /\ s_incap (wake_mgr s) = s_incap s /\ s_phase (wake_mgr s) = s_phase s /\
  s_output (wake_mgr s) = s_output s /\ s_written (wake_mgr s) = s_written s /\ s_outcap (wake_mgr s) = s_outcap s.
Proof. unfold wake_mgr. destruct (s_mgr_waker s); repeat split. Qed.

(** Nothing was read yet; the other fields are as given. *)
Record core (ph : phase) (out : bytes) (fr : bool) (s : sess) : Prop := {
  co_closed : s_closed s = false;
  co_input : s_input s = [];
  co_incap : s_incap s = 65536;
  co_phase : s_phase s = ph;
  co_output : s_output s = out;
  co_fresh : fr = true -> s_written s = 0 /\ s_outcap s = 65536
}.
Definition alive (s : sess) : Prop := s_closed s = false.

(** A property of sessions that are not closed, kept by polls and idle turns. *)
Record stable (P : sess -> Prop) : Prop := {
  st_closed : forall s, P s -> s_closed s = false;
  st_take : forall f s, P s -> P (snd (fst (fst (sess_take f s))));
  st_idle : forall te s, idle te -> P s -> P (fst (sess_step s (sev_of te)))
}.

Lemma take_open f s : s_closed s = false -> let '(t, s', _, o) := sess_take f s in
  (t = TkPending \/ exists m, t = TkMsg m) /\ s_closed s' = false /\ written o = [] /\ read_in o = [].
Proof.
  intros C. unfold sess_take. destruct (0 <? s_written s); [cbn [next_id]; repeat split; [right; eexists; reflexivity|exact C]|]. cbv zeta.
  set (s2 := with_input _ _). set (s3 := if _ <? _ then _ else _).
  assert (C3 : s_closed s3 = false) by (unfold s3; destruct (_ <? _); [rewrite (proj1 (wt_f s2))|]; exact C).
  destruct (firstn _ _); [|repeat split; [right; eexists; reflexivity|exact C3]]. rewrite C3. repeat split; [left; reflexivity|exact C3].
Qed.

Lemma idle_step te s : idle te -> written (snd (sess_step s (sev_of te))) = [] /\ read_in (snd (sess_step s (sev_of te))) = [].
Proof.
  intros H. destruct te as [| |r w| |]; try contradiction.
  - destruct r; try contradiction. destruct w; try contradiction. cbn [sev_of sess_step]. unfold transport_poll. destruct (s_phase s); try (split; reflexivity).
    destruct (s_closed _) eqn:C; [split; reflexivity|]. unfold poll_read_input. rewrite C. destruct (_ <=? _); unfold poll_write_output;
      match goal with |- context [s_output ?x] => destruct (s_output x) end; try (match goal with |- context [s_closed ?x] => destruct (s_closed x) end); split; reflexivity.
  - cbn [sev_of sess_step]. destruct (s_wait_rd s); split; reflexivity.
  - cbn [sev_of sess_step]. destruct (s_wait_wr s); split; reflexivity.
Qed.

Lemma idle_fields te s : idle te -> let s' := fst (sess_step s (sev_of te)) in s_closed s = false ->
  s_closed s' = s_closed s /\ s_input s' = s_input s /\ s_incap s' = s_incap s /\ s_phase s' = s_phase s /\
  s_output s' = s_output s /\ s_written s' = s_written s /\ s_outcap s' = s_outcap s.
Proof.
  intros H. destruct te as [| |r w| |]; try contradiction; cbv zeta; intros C.
  - destruct r; try contradiction. destruct w; try contradiction. cbn [sev_of sess_step]. unfold transport_poll. destruct (s_phase s) eqn:P; try (repeat split; exact P).
    cbn [s_closed with_tr]. rewrite C. unfold poll_read_input. cbn [s_closed with_tr s_input]. rewrite C. destruct (_ <=? _); unfold poll_write_output; cbn [s_output s_closed with_tr with_wait];
      destruct (s_output s) eqn:E; rewrite ?C; cbn [orb fst with_tr with_wait s_closed s_input s_incap s_phase s_output s_written s_outcap]; repeat split; assumption.
  - cbn [sev_of sess_step]. destruct (s_wait_rd s); repeat split.
  - cbn [sev_of sess_step]. destruct (s_wait_wr s); repeat split.
Qed.

Lemma alive_stable : stable alive.
Proof.
  split.
  - intros s C. exact C.
  - intros f s C. pose proof (take_open f s C) as T. destruct (sess_take f s) as [[[t s'] f'] o]. exact (proj1 (proj2 T)).
  - intros te s I C. unfold alive. rewrite (proj1 (idle_fields te s I C)). exact C.
Qed.

Lemma core_stable ph out fr : stable (core ph out fr).
Proof.
  split.
  - intros s C. apply C.
  - intros f s [C I W P O F]. unfold sess_take. destruct (N.ltb_spec 0 (s_written s)) as [L|L].
    + cbn [next_id fst snd]. split; cbn; try assumption. intros E. destruct (F E). lia.
    + cbv zeta. rewrite I. change (nlen (@nil N)) with 0. rewrite N.min_0_r. cbn [firstn N.to_nat]. set (s2 := with_input _ _). set (s3 := if _ <? _ then _ else _).
      assert (core ph out fr s3) as K.
      { assert (core ph out fr s2) as K2.
        { unfold s2. split; cbn [s_closed s_input s_incap s_phase s_output s_written s_outcap with_input with_caps]; rewrite ?I, ?N.sub_0_r; try assumption. reflexivity. }
        unfold s3. destruct (_ <? _); [|exact K2]. destruct (wt_f s2) as (A1 & A2 & A3 & A4 & A5 & A6 & A7). destruct K2 as [B1 B2 B3 B4 B5 B6].
        split; congruence || (rewrite A6, A7; exact B6). }
      rewrite (co_closed _ _ _ _ K). cbn [fst snd]. destruct K as [B1 B2 B3 B4 B5 B6]. split; assumption.
  - intros te s Hi [C I W P O F]. destruct (idle_fields te s Hi C) as (A1 & A2 & A3 & A4 & A5 & A6 & A7). split; congruence || (rewrite A6, A7; exact F).
Qed.

(** ** Histories *)
Definition effects (sid : N) (h : list mobs) : list sobs := concat (map snd (own sid h)).
Lemma effects_app sid a b : effects sid (a ++ b) = effects sid a ++ effects sid b.
Proof. unfold effects. now rewrite own_app, map_app, concat_app. Qed.
Lemma effects_one sid e o : effects sid [OSess sid e o] = o.
Proof. unfold effects. cbn [own flat_map]. rewrite N.eqb_refl. cbn. now rewrite app_nil_r. Qed.

Record silent (sid : N) (h : list mobs) : Prop := {
  si_open : forall t mac a, ~ In (OOpen sid t mac a) h;
  si_written : written (effects sid h) = [];
  si_read : read_in (effects sid h) = []
}.
Lemma silent_nil sid : silent sid [].
Proof. split; [intros t mac a []|reflexivity|reflexivity]. Qed.
Lemma silent_app sid a b : silent sid a -> silent sid b -> silent sid (a ++ b).
Proof.
  intros [A1 A2 A3] [B1 B2 B3]. split.
  - intros t mac x H. apply in_app_or in H as [H|H]; [exact (A1 t mac x H)|exact (B1 t mac x H)].
  - now rewrite effects_app, written_app, A2, B2.
  - now rewrite effects_app, read_in_app, A3, B3.
Qed.
Lemma silent_other sid x : (forall t mac a, x <> OOpen sid t mac a) -> own sid [x] = [] -> silent sid [x].
Proof. intros A B. split; [intros t mac a [H|[]]; exact (A t mac a H)| |]; unfold effects; rewrite B; reflexivity. Qed.
Lemma silent_sess sid s e o : (s = sid -> written o = [] /\ read_in o = []) -> silent sid [OSess s e o].
Proof.
  intros A. destruct (N.eqb_spec s sid) as [->|Hn].
  - destruct (A eq_refl) as [B C]. split; [intros t mac a [H|[]]; discriminate H| |]; rewrite effects_one; assumption.
  - apply silent_other; [intros; discriminate|]. cbn [own flat_map]. destruct (N.eqb_spec s sid); [contradiction|reflexivity].
Qed.

Definition sile (sid : N) (h : list cobs) : Prop := silent sid (manager_history h).
Lemma sile_app sid a b : sile sid a -> sile sid b -> sile sid (a ++ b).
Proof. unfold sile. rewrite mhist_app. apply silent_app. Qed.

(** ** Steps that leave a session alone *)
Definition keeps (P : sess -> Prop) (sid : N) (g g' : mgr) (o : list mobs) : Prop :=
  (exists s, find_sess g sid = Some s /\ P s) -> (exists s, find_sess g' sid = Some s /\ P s) /\ silent sid o.

Lemma keeps_trans P sid g g1 g2 o1 o2 : keeps P sid g g1 o1 -> keeps P sid g1 g2 o2 -> keeps P sid g g2 (o1 ++ o2).
Proof. intros A B H. destruct (A H) as [H1 S1]. destruct (B H1) as [H2 S2]. split; [exact H2|]. now apply silent_app. Qed.

Lemma keeps_same P sid g g' : g_sessions g' = g_sessions g -> keeps P sid g g' [].
Proof. intros E H. unfold find_sess in *. rewrite E. split; [exact H|apply silent_nil]. Qed.

Lemma loop_keeps P sid : stable P -> forall n g, let '(_, g', o) := poll_loop n g in keeps P sid g g' o.
Proof.
  intros ST. induction n as [|n IH]; intros g; cbn [poll_loop]; [now apply keeps_same|].
  destruct (g_order g) as [|x rest]; [apply IH|]. cbv zeta. set (g0 := set_order g rest). change (find_sess g0 x) with (find_sess g x).
  destruct (find_sess g x) as [sx|] eqn:Ex.
  - destruct (sess_take (g_factory g0) sx) as [[[t s'] f'] o] eqn:Et.
    assert (QT : written o = [] /\ read_in o = []).
    { unfold sess_take in Et. destruct (0 <? s_written sx); [injection Et as _ _ _ <-; split; reflexivity|]. cbv zeta in Et.
      destruct (firstn _ _); [|injection Et as _ _ _ <-; split; reflexivity].
      destruct (s_closed _); [destruct (s_error _)|]; injection Et as _ _ _ <-; split; reflexivity. }
    assert (INS : forall gg, find_sess gg sid = alookup sid (ainsert x s' (g_sessions g)) -> keeps P sid g gg [OSess x (ETake (g_factory g0)) o]).
    { intros gg Eg (s & S & Ps). split; [|apply silent_sess; intros _; exact QT]. rewrite Eg, alookup_insert.
      destruct (N.eqb_spec sid x) as [->|_]; [|exists s; split; assumption].
      exists s'. split; [reflexivity|]. assert (sx = s) by congruence. subst sx. pose proof (st_take _ ST (g_factory g0) s Ps) as Z. now rewrite Et in Z. }
    assert (REM : (t = TkEnd \/ t = TkError) -> forall gg m w, find_sess gg sid = alookup sid (aremove x (g_sessions g)) ->
              keeps P sid g gg [OSess x (ETake (g_factory g0)) o; OMsg w m]).
    { intros T gg m w Eg (s & S & Ps). split.
      - rewrite Eg, alookup_remove. destruct (N.eqb_spec sid x) as [->|_]; [|exists s; split; assumption]. exfalso.
        assert (sx = s) by congruence. subst sx. pose proof (take_open (g_factory g0) s (st_closed _ ST s Ps)) as Z. rewrite Et in Z.
        destruct Z as [[Z|[y Z]] _]; destruct T; congruence.
      - apply (silent_app sid [_] [_]); [apply silent_sess; intros _; exact QT|]. apply silent_other; [intros; discriminate|reflexivity]. }
    destruct t as [m| | |]; unfold create_hup; cbn [next_id].
    + intros H. destruct (INS (set_order (set_sess (set_factory g0 f') x s') (g_order (set_factory g0 f') ++ [x])) eq_refl H) as [A B]. split; [exact A|].
      apply (silent_app sid [_] [_]); [exact B|]. apply silent_other; [intros; discriminate|reflexivity].
    + apply REM; [right; reflexivity|reflexivity].
    + apply REM; [left; reflexivity|reflexivity].
    + set (g2 := set_order (set_sess _ _ _) _). specialize (IH g2). destruct (poll_loop n g2) as [[r g3] os].
      exact (keeps_trans P sid g g2 g3 [_] os (INS g2 eq_refl) IH).
  - specialize (IH g0). destruct (poll_loop n g0) as [[r g3] os]. exact IH.
Qed.

Lemma poll_keeps P sid g : stable P -> keeps P sid g (fst (mgr_poll g)) (snd (mgr_poll g)).
Proof.
  intros ST. unfold mgr_poll. destruct (g_queue g) as [|m q].
  - pose proof (loop_keeps P sid ST (length (g_order g)) g) as H. destruct (poll_loop _ g) as [[r g1] o]. destruct r; exact H.
  - cbn [fst snd]. intros H. split; [exact H|]. apply silent_other; [intros; discriminate|reflexivity].
Qed.

Lemma transport_keeps_other P sid g s te : stable P -> (s = sid -> idle te) -> keeps P sid g (fst (mgr_step g (MTransport s te))) (snd (mgr_step g (MTransport s te))).
Proof.
  intros ST I. cbn [mgr_step]. destruct (find_sess g s) as [x|] eqn:E; [|now apply keeps_same].
  destruct (sess_step x (sev_of te)) as [x' o] eqn:Ex. cbn [fst snd]. intros (y & Y & Py). split.
  - unfold find_sess, set_sess, set_sessions. cbn [g_sessions]. rewrite alookup_insert. destruct (N.eqb_spec sid s) as [<-|_]; [|exists y; split; assumption].
    exists x'. split; [reflexivity|]. assert (x = y) by congruence. subst y. pose proof (st_idle _ ST te x (I eq_refl) Py) as Z. now rewrite Ex in Z.
  - apply silent_sess. intros ->. pose proof (idle_step te x (I eq_refl)) as Z. now rewrite Ex in Z.
Qed.

(** ** The connection *)
Definition holds (P : sess -> Prop) (sid : N) (c : ctx) : Prop := exists s, find_sess (c_mgr c) sid = Some s /\ P s.

Lemma ctx_keeps P sid c p c' o : stable P -> ctx_poll c = (p, c', o) -> holds P sid c -> holds P sid c' /\ sile sid o.
Proof.
  intros ST E H. unfold ctx_poll in E. destruct (is_closed c); [injection E as _ <- <-; split; [exact H|apply silent_nil]|].
  destruct (c_messages c); [|injection E as _ <- <-; split; [exact H|apply silent_nil]].
  pose proof (poll_keeps P sid (c_mgr c) ST) as K. destruct (mgr_poll (c_mgr c)) as [g o']. destruct (K H) as [A B]. cbn [fst snd] in *.
  unfold sile. destruct (polled_msg o'); injection E as _ <- <-; rewrite mhist_lift; split; assumption.
Qed.

Lemma time_sessions t c v0 v1 v2 r c' o : time_event t c v0 v1 v2 = (r, c', o) ->
  g_sessions (c_mgr c') = g_sessions (c_mgr c) /\ manager_history o = [].
Proof.
  unfold time_event. destruct (c_established c); [|intros E; injection E as _ <- <-; split; reflexivity].
  assert (SC : forall t c m c' o, send_control t c m = (c', o) -> c_mgr c' = c_mgr c /\ manager_history o = []).
  { intros tt cc m cc' oo. unfold send_control. cbn [c_task set_messages]. destruct (c_task cc); intros E; injection E as <- <-; split; reflexivity. }
  assert (PG : forall t c c' o, send_ping t c = (c', o) -> g_sessions (c_mgr c') = g_sessions (c_mgr c) /\ manager_history o = []).
  { intros tt cc cc' oo. unfold send_ping, c_next_id, send_unconfirmed. cbn [next_id].
    match goal with |- context [send_control ?a ?b ?d] => destruct (send_control a b d) as [c2 o2] eqn:E2 end.
    intros E. injection E as <- <-. apply SC in E2 as [A B]. cbn [c_mgr set_last_ping]. rewrite A. split; [reflexivity|exact B]. }
  assert (CU : forall t c v0 v1 v2 c' o, check_for_updates t c v0 v1 v2 = (c', o) -> g_sessions (c_mgr c') = g_sessions (c_mgr c) /\ manager_history o = []).
  { intros tt cc a b d cc' oo. unfold check_for_updates. destruct (_ =? _); [intros E; injection E as <- <-; split; reflexivity|].
    unfold send_update, c_next_id. cbn [next_id].
    match goal with |- context [send_control ?x ?y ?z] => destruct (send_control x y z) as [c2 o2] eqn:E2 end.
    intros E. injection E as <- <-. apply SC in E2 as [A B]. cbn [c_mgr set_last_check]. rewrite A. split; [reflexivity|exact B]. }
  destruct (if Z.leb PING_PERIOD (t - c_last_ping c) then send_ping t c else (c, [])) as [c1 o1] eqn:E1.
  assert (A : g_sessions (c_mgr c1) = g_sessions (c_mgr c) /\ manager_history o1 = []).
  { destruct (Z.leb PING_PERIOD _); [exact (PG _ _ _ _ E1)|injection E1 as <- <-; split; reflexivity]. }
  destruct (if Z.leb UPDATE_CHECK_PERIOD (t - c_last_check c1) then check_for_updates t c1 v0 v1 v2 else (c1, [])) as [c2 o2] eqn:E2.
  assert (B : g_sessions (c_mgr c2) = g_sessions (c_mgr c1) /\ manager_history o2 = []).
  { destruct (Z.leb UPDATE_CHECK_PERIOD _); [exact (CU _ _ _ _ _ _ _ E2)|injection E2 as <- <-; split; reflexivity]. }
  intros E. injection E as _ <- <-. destruct A as [A1 A2], B as [B1 B2]. rewrite mhist_app, A2, B2. split; [congruence|reflexivity].
Qed.

Lemma step_keeps P sid k e k' o : stable P -> bystander sid e -> conn_step k e = (k', o) -> k_result k' = None ->
  holds P sid (k_ctx k) -> holds P sid (k_ctx k') /\ sile sid o.
Proof.
  intros ST B E R H. unfold conn_step in E. destruct (k_result k) eqn:Rk; [exfalso; assert (k' = k) by congruence; congruence|].
  destruct e as [items|t v0 v1 v2| |s te]; try contradiction.
  - destruct items as [|it its]; try contradiction. cbn [client_poll client_loop] in E. destruct (ctx_poll (k_ctx k)) as [[p c1] o1] eqn:Ec.
    pose proof (ctx_keeps P sid _ _ _ _ ST Ec H) as [A Q].
    destruct p as [m|ek| |]; injection E as <- <-; cbn [k_ctx]; split; try assumption. apply sile_app; [exact Q|]. unfold sile. apply silent_nil.
  - destruct (is_closed (k_ctx k)); [injection E as <- <-; discriminate R|].
    destruct (time_event t (k_ctx k) v0 v1 v2) as [[r c1] o1] eqn:Et. injection E as <- <-. apply time_sessions in Et as [A Q]. cbn [k_ctx]. split.
    + unfold holds, find_sess in *. rewrite A. exact H.
    + unfold sile. change (manager_history (XTick t v0 v1 v2 :: o1)) with (manager_history o1). rewrite Q. apply silent_nil.
  - pose proof (transport_keeps_other P sid (c_mgr (k_ctx k)) s te ST B) as K. destruct (mgr_step (c_mgr (k_ctx k)) (MTransport s te)) as [g oo].
    unfold lift_mgr in E. injection E as <- <-. destruct (K H) as [A Q]. cbn [fst snd] in *. unfold sile. rewrite mhist_lift. split; assumption.
Qed.

Lemma run_keeps P sid es : stable P -> Forall (bystander sid) es -> forall k k' h, conn_run k es = (k', h) -> k_result k' = None ->
  holds P sid (k_ctx k) -> holds P sid (k_ctx k') /\ sile sid h.
Proof.
  intros ST. induction es as [|e es IH]; intros F k k' h E R H; [injection E as <- <-; split; [exact H|apply silent_nil]|].
  inversion F as [|? ? Fe Fes]; subst. cbn [conn_run] in E. destruct (conn_step k e) as [k1 o1] eqn:E1. destruct (conn_run k1 es) as [k2 o2] eqn:E2. injection E as <- <-.
  assert (R1 : k_result k1 = None).
  { destruct (k_result k1) eqn:X; [|reflexivity]. exfalso. pose proof (result_stays es k1) as Y. rewrite X in Y. specialize (Y ltac:(discriminate)). rewrite E2 in Y. exact (Y R). }
  destruct (step_keeps P sid k e k1 o1 ST Fe E1 R1 H) as [A B]. destruct (IH Fes k1 k2 o2 E2 R A) as [C D]. split; [exact C|]. now apply sile_app.
Qed.

(** ** The steps of the conversation *)

(** One item is received, then the client is polled. *)
Lemma one_item k it k' o : conn_step k (KPoll [it]) = (k', o) -> k_result k' = None -> k_result k = None /\
  exists c1 o1 p c2 o2, feed_item (k_ctx k) it = (None, c1, o1) /\ is_closed c1 = false /\ ctx_poll c1 = (p, c2, o2) /\ k_ctx k' = c2 /\
    (o = o1 ++ o2 \/ exists m, o = (o1 ++ o2) ++ [XSent m]).
Proof.
  intros E R. unfold conn_step in E. destruct (k_result k) eqn:Rk; [exfalso; assert (k' = k) by congruence; congruence|]. split; [reflexivity|].
  cbn [client_poll client_loop] in E. destruct (feed_item (k_ctx k) it) as [[r c1] o1]. destruct r as [ek|]; [injection E as <- <-; discriminate R|].
  destruct (ctx_poll c1) as [[p c2] o2] eqn:Ec. exists c1, o1, p, c2, o2. split; [reflexivity|].
  assert (X : is_closed c1 = false).
  { destruct (is_closed c1) eqn:X; [|reflexivity]. exfalso. unfold ctx_poll in Ec. rewrite X in Ec. injection Ec as <- <- <-. injection E as <- <-. discriminate R. }
  split; [exact X|]. split; [exact Ec|].
  destruct p as [m|ek| |]; injection E as <- <-; try discriminate R; cbn [k_ctx]; (split; [reflexivity|]); [right; eexists; reflexivity|left; reflexivity].
Qed.

Lemma connect_step k t1 e1 m1 id svc sid s a k' o :
  conn_step k (KPoll [SMsg t1 e1 m1]) = (k', o) -> k_result k' = None -> session k sid = None ->
  server_says m1 {| cm_id := id; cm_type := 13; cm_body := BConnect svc sid |} ->
  v_get (e_table e1) svc = Some s -> s_addr s = Some a -> (g_gateway (c_mgr (k_ctx k)) = true \/ loopback (sa_ip a)) -> g_window (c_mgr (k_ctx k)) = 65536 ->
  exists h, o = [XRecv e1 m1; XMgr (OOpen sid (s_type s) (match s_mac s with Some m => m | None => 0 end) a)] ++ h /\
    holds (core TConnecting [] true) sid (k_ctx k') /\ sile sid h.
Proof.
  intros E R S [M0 M1] V A G W. destruct (one_item _ _ _ _ E R) as (Rk & c1 & o1 & p & c2 & o2 & F & NC & Ec & -> & Eo).
  cbn [feed_item] in F. unfold process_message in F. destruct (is_closed (k_ctx k)) eqn:Ck; [exfalso; injection F as <- _; congruence|].
  rewrite M0 in F. cbn [N.eqb] in F. rewrite (accept_complete _ _ M1) in F. unfold process_control in F. cbn [message_type cm_type cm_body] in F.
  destruct (c_established (k_ctx k)); [|discriminate F]. cbn [fst snd] in F.
  assert (CI : connect_inner (c_mgr (k_ctx k)) (v_get (e_table e1)) svc sid = Some (s_type s, match s_mac s with Some m => m | None => 0 end, a)).
  { apply connect_inner_iff. exists s. repeat split; assumption. }
  unfold mgr_connect in F. rewrite CI in F. unfold lift_mgr in F. cbv zeta in F. cbn [fst snd map] in F. injection F as <- <-.
  destruct (ctx_keeps (core TConnecting [] true) sid _ _ _ _ (core_stable _ _ _) Ec) as [H Q].
  { eexists. split.
    - cbn [c_mgr Client.set_mgr]. unfold find_sess, set_sess, set_sessions. cbn [g_sessions]. rewrite alookup_insert, N.eqb_refl. reflexivity.
    - rewrite W. split; try reflexivity. intros _. split; reflexivity. }
  destruct Eo as [-> | [m ->]].
  - exists o2. split; [reflexivity|]. split; [exact H|exact Q].
  - exists (o2 ++ [XSent m]). split; [reflexivity|]. split; [exact H|]. apply sile_app; [exact Q|apply silent_nil].
Qed.

Lemma push_step k t2 e2 svc sid req k' o :
  conn_step k (KPoll [SMsg t2 e2 {| m_service := svc; m_session := sid; m_payload := req |}]) = (k', o) -> k_result k' = None -> svc <> 0 -> nlen req <= 65536 ->
  holds (core TRunning [] true) sid (k_ctx k) -> holds (core TRunning req false) sid (k_ctx k') /\ sile sid o.
Proof.
  intros E R V L (s & S & [C I W P O F]). destruct (one_item _ _ _ _ E R) as (Rk & c1 & o1 & p & c2 & o2 & D & NC & Ec & -> & Eo).
  cbn [feed_item] in D. unfold process_message in D. destruct (is_closed (k_ctx k)) eqn:Ck; [exfalso; injection D as <- _; congruence|].
  cbn [m_service] in D. destruct (N.eqb_spec svc 0) as [Z|_]; [contradiction|]. destruct (c_established (k_ctx k)); [|discriminate D].
  unfold mgr_send in D. cbn [m_session m_payload] in D. rewrite S in D. cbn [sess_step] in D. unfold sess_push in D. rewrite C in D.
  destruct (F eq_refl) as [F1 F2]. rewrite F2 in D. destruct (N.ltb_spec 65536 (nlen req)) as [Z|_]; [lia|]. cbv zeta in D.
  unfold lift_mgr in D. cbn [map] in D. injection D as <- <-.
  match type of Ec with ctx_poll (Client.set_mgr _ (set_sess _ _ ?x)) = _ => set (s' := x) in * end.
  assert (K : core TRunning req false s').
  { unfold s'. cbn [s_output with_output with_caps]. rewrite O. cbn [app]. set (y := with_output _ _).
    assert (Ky : core TRunning req false y) by (unfold y; split; cbn; try assumption; [reflexivity|discriminate]).
    destruct req; [exact Ky|]. destruct (wt_f y) as (A1 & A2 & A3 & A4 & A5 & A6 & A7). destruct Ky as [B1 B2 B3 B4 B5 B6]. split; try congruence. }
  destruct (ctx_keeps (core TRunning req false) sid _ _ _ _ (core_stable _ _ _) Ec) as [H Q].
  { exists s'. split; [|exact K]. cbn [c_mgr Client.set_mgr]. unfold find_sess, set_sess, set_sessions. cbn [g_sessions]. rewrite alookup_insert, N.eqb_refl. reflexivity. }
  split; [exact H|].
  assert (Q1 : sile sid [XRecv e2 {| m_service := svc; m_session := sid; m_payload := req |}; XMgr (OSess sid (EPush req) [Accepted req])]).
  { unfold sile. cbn [manager_history flat_map app]. apply silent_sess. intros _. split; reflexivity. }
  destruct Eo as [-> | [m ->]]; [apply sile_app; assumption|]. apply sile_app; [apply sile_app; assumption|apply silent_nil].
Qed.

Lemma transport_step k sid te s k' o : conn_step k (KTransport sid te) = (k', o) -> k_result k' = None -> session k sid = Some s ->
  session k' sid = Some (fst (sess_step s (sev_of te))) /\ o = [XMgr (OSess sid (sev_of te) (snd (sess_step s (sev_of te))))].
Proof.
  intros E R S. unfold conn_step in E. destruct (k_result k) eqn:Rk; [exfalso; assert (k' = k) by congruence; congruence|].
  cbn [mgr_step] in E. unfold session in S. rewrite S in E. destruct (sess_step s (sev_of te)) as [s' ob]. unfold lift_mgr in E. cbn [map] in E. injection E as <- <-.
  split; [|reflexivity]. unfold session. cbn [k_ctx c_mgr Client.set_mgr]. unfold find_sess, set_sess, set_sessions. cbn [g_sessions]. rewrite alookup_insert, N.eqb_refl. reflexivity.
Qed.

Lemma connected_core s : core TConnecting [] true s -> core TRunning [] true (fst (sess_step s EConnected)) /\ snd (sess_step s EConnected) = [].
Proof. intros [C I W P O F]. cbn [sess_step]. rewrite P. split; [split; assumption || reflexivity|reflexivity]. Qed.

Lemma write_core req len s : core TRunning req false s -> nlen req <= len ->
  core TRunning [] false (fst (sess_step s (ETransport RdPending (WrOk len)))) /\
  written (snd (sess_step s (ETransport RdPending (WrOk len)))) = req /\ read_in (snd (sess_step s (ETransport RdPending (WrOk len)))) = [].
Proof.
  intros [C I W P O F] L. cbn [sess_step]. unfold transport_poll. rewrite P. cbn [s_closed with_tr]. rewrite C. unfold poll_read_input. cbn [s_closed with_tr s_input]. rewrite C, I.
  change (BUFFER_CAPACITY <=? nlen (@nil N)) with false. unfold poll_write_output. cbn [s_output s_closed with_tr with_wait]. rewrite O.
  destruct req as [|x req'].
  - rewrite C. cbn [orb fst snd app with_tr with_wait s_closed s_input s_incap s_phase s_output s_written s_outcap].
    split; [split; cbn; try assumption; discriminate|split; reflexivity].
  - cbv zeta. cbn [orb fst snd app s_output with_wait with_tr]. rewrite ?O. set (r := x :: req') in *.
    rewrite (N.min_r _ _ L). unfold nlen. rewrite Nnat.Nat2N.id, firstn_all, skipn_all.
    split; [|split; [unfold written; cbn [flat_map]; apply app_nil_r|reflexivity]].
    match goal with |- core _ _ _ (with_tr ?y _ true) => set (y0 := y) end.
    assert (K : core TRunning [] false y0).
    { unfold y0. match goal with |- core _ _ _ (wake_mgr ?z) => set (z0 := z); destruct (wm_f z0) as (A1 & A2 & A3 & A4 & A5 & A6 & A7) end.
      split; rewrite ?A1, ?A2, ?A3, ?A4, ?A5; try assumption; try reflexivity. discriminate. }
    destruct K as [B1 B2 B3 B4 B5 B6]. split; assumption.
Qed.

Lemma read_core answer w s : core TRunning [] false s -> answer <> [] ->
  let s' := fst (sess_step s (ETransport (RdData answer) w)) in
  (s_closed s' = false /\ s_input s' = answer /\ s_incap s' = 65536 /\ s_output s' = []) /\
  written (snd (sess_step s (ETransport (RdData answer) w))) = [] /\ read_in (snd (sess_step s (ETransport (RdData answer) w))) = answer.
Proof.
  intros [C I W P O F] A. destruct answer as [|x b]; [contradiction|]. cbv zeta. cbn [sess_step]. unfold transport_poll. rewrite P. cbn [s_closed with_tr]. rewrite C.
  unfold poll_read_input. cbn [s_closed with_tr s_input]. rewrite C, I. change (BUFFER_CAPACITY <=? nlen (@nil N)) with false. cbv zeta.
  cbn [s_input with_wait with_input with_tr]. rewrite I. cbn [app].
  match goal with |- context [wake_mgr ?z] => set (z0 := z); destruct (wm_f z0) as (A1 & A2 & A3 & A4 & A5 & A6 & A7) end.
  assert (X : s_output (wake_mgr z0) = []) by (rewrite A5; exact O).
  unfold poll_write_output. rewrite X. rewrite A1. change (s_closed z0) with (s_closed s). rewrite C. cbn [orb fst snd app].
  split; [|split; [reflexivity|unfold read_in; cbn [flat_map]; apply app_nil_r]].
  cbn [s_closed s_input s_incap s_output with_tr]. rewrite A1, A2, A3, A5. repeat split; try assumption. 
Qed.

(** ** The conversation *)
Lemma run_split a : forall b k k' h, conn_run k (a ++ b) = (k', h) -> exists k1 h1 h2, conn_run k a = (k1, h1) /\ conn_run k1 b = (k', h2) /\ h = h1 ++ h2.
Proof.
  induction a as [|e a IH]; intros b k k' h E; [exists k, [], h; repeat split; exact E|]. cbn [app conn_run] in *. destruct (conn_step k e) as [k1 o1].
  destruct (conn_run k1 (a ++ b)) as [k2 o2] eqn:E2. injection E as <- <-. destruct (IH b k1 k2 o2 E2) as (k3 & h1 & h2 & A & B & ->). rewrite A.
  exists k3, (o1 ++ h1), h2. split; [reflexivity|]. split; [exact B|apply app_assoc].
Qed.
Lemma run_first e es k k' h : conn_run k (e :: es) = (k', h) -> exists k1 h1 h2, conn_step k e = (k1, h1) /\ conn_run k1 es = (k', h2) /\ h = h1 ++ h2.
Proof. intros E. cbn [conn_run] in E. destruct (conn_step k e) as [k1 o1]. destruct (conn_run k1 es) as [k2 o2] eqn:E2. injection E as <- <-. exists k1, o1, o2. repeat split; assumption. Qed.
Lemma still_on es k k' h : conn_run k es = (k', h) -> k_result k' = None -> k_result k = None.
Proof. intros E R. destruct (k_result k) eqn:X; [|reflexivity]. exfalso. pose proof (result_stays es k) as Y. rewrite X, E in Y. apply Y; [discriminate|exact R]. Qed.

Lemma to_service_more sid h h' : (forall t mac a, ~ In (OOpen sid t mac a) (manager_history h')) ->
  to_service sid (h ++ h') = to_service sid h ++ written (effects sid (manager_history h')).
Proof.
  intros N. unfold to_service, effects. rewrite (to_service_since sid (h ++ h') [] [] eq_refl), (to_service_since sid h [] [] eq_refl).
  rewrite mhist_app, fold_left_app, (since_own sid (manager_history h') N), map_app, concat_app, written_app. reflexivity.
Qed.
Lemma from_service_more sid h h' : (forall t mac a, ~ In (OOpen sid t mac a) (manager_history h')) ->
  from_service sid (h ++ h') = from_service sid h ++ read_in (effects sid (manager_history h')).
Proof.
  intros N. unfold from_service, effects. rewrite (from_service_since sid (h ++ h') [] [] eq_refl), (from_service_since sid h [] [] eq_refl).
  rewrite mhist_app, fold_left_app, (since_own sid (manager_history h') N), map_app, concat_app, read_in_app. reflexivity.
Qed.

Lemma position_le x l : (position x l <= length l)%nat.
Proof. induction l as [|y l IH]; cbn; [lia|]. destruct (_ =? _); lia. Qed.

Lemma bystander_silent sid e : bystander sid e -> no_input e.
Proof. destruct e as [[|]| | |]; cbn; auto. Qed.

Section Talk.
  Variables (t : Z) (i : identity) (v1 v2 : view) (es1 : list kev) (k1 : conn) (h1 : list cobs).
  Variables (t1 t2 : Z) (e1 e2 : env) (m1 : amsg) (id svc sid : N) (s : service) (a : saddr) (req answer : bytes) (len : N) (w : wr) (n1 n2 n3 n4 : list kev).
  Variables (k2 : conn) (h2 : list cobs).
  Hypothesis H1 : connection t i v1 v2 es1 = (k1, h1).
  Hypothesis S1 : session k1 sid = None.
  Hypothesis M1 : server_says m1 {| cm_id := id; cm_type := 13; cm_body := BConnect svc sid |}.
  Hypothesis V1 : svc <> 0.
  Hypothesis T1 : v_get (e_table e1) svc = Some s.
  Hypothesis A1 : s_addr s = Some a.
  Hypothesis G1 : reachable i a.
  Hypothesis L1 : nlen req <= 65536.
  Hypothesis L2 : nlen req <= len.
  Hypothesis L3 : answer <> [].
  Hypothesis F1 : Forall (bystander sid) (n1 ++ n2 ++ n3 ++ n4).
  Hypothesis H2 : conn_run k1 (chat sid (SMsg t1 e1 m1) (SMsg t2 e2 {| m_service := svc; m_session := sid; m_payload := req |}) len answer w n1 n2 n3 n4) = (k2, h2).
  Hypothesis R2 : k_result k2 = None.

  Lemma talk : exists h3 h4 s2, h2 = h3 ++ [XMgr (OOpen sid (s_type s) (match s_mac s with Some m => m | None => 0 end) a)] ++ h4 /\
    to_service sid (h1 ++ h2) = req /\ from_service sid (h1 ++ h2) = answer /\
    session k2 sid = Some s2 /\ s_closed s2 = false /\ s_input s2 = answer /\ s_incap s2 = 65536 /\ s_output s2 = [].
  Proof.
    rewrite !Forall_app in F1. destruct F1 as (B1 & B2 & B3 & B4). unfold chat in H2.
    destruct (run_first _ _ _ _ _ H2) as (ka & oa & ra & Ea & H3 & ->). pose proof (still_on _ _ _ _ H3 R2) as Ra.
    destruct (run_split _ _ _ _ _ H3) as (kb & ob & rb & Eb & H4 & ->). pose proof (still_on _ _ _ _ H4 R2) as Rb.
    destruct (run_first _ _ _ _ _ H4) as (kc & oc & rc & Ec & H5 & ->). pose proof (still_on _ _ _ _ H5 R2) as Rc.
    destruct (run_split _ _ _ _ _ H5) as (kd & od & rd & Ed & H6 & ->). pose proof (still_on _ _ _ _ H6 R2) as Rd.
    destruct (run_first _ _ _ _ _ H6) as (ke & oe & re & Ee & H7 & ->). pose proof (still_on _ _ _ _ H7 R2) as Re.
    destruct (run_split _ _ _ _ _ H7) as (kf & of & rf & Ef & H8 & ->). pose proof (still_on _ _ _ _ H8 R2) as Rf.
    destruct (run_first _ _ _ _ _ H8) as (kg & og & rg & Eg & H9 & ->). pose proof (still_on _ _ _ _ H9 R2) as Rg.
    destruct (run_split _ _ _ _ _ H9) as (kh & oh & rh & Eh & H10 & ->). pose proof (still_on _ _ _ _ H10 R2) as Rh.
    destruct (run_first _ _ _ _ _ H10) as (kj & oj & rj & Ej & H11 & ->). cbn [conn_run] in H11. injection H11 as -> <-.
    assert (R1 : k_result k1 = None) by exact (still_on _ _ _ _ H2 R2).
    destruct (connection_manager _ _ _ _ _ _ _ H1 R1) as [mes ME].
    pose proof (mgr_run_inv 65536 (id_gateway i) 0 mes) as MI. rewrite ME in MI. pose proof (si_win _ _ _ MI) as WW.
    pose proof (run_gateway mes (mgr_new 65536 (id_gateway i) 0)) as GW. rewrite ME in GW. cbn [fst mgr_new g_gateway] in GW.
    destruct (connect_step k1 t1 e1 m1 id svc sid s a ka oa Ea Ra S1 M1 T1 A1) as (ha & -> & Ha & Qa); [rewrite GW; exact G1|exact WW|].
    destruct (run_keeps _ sid n1 (core_stable _ _ _) B1 ka kb ob Eb Rb Ha) as [Hb Qb].
    destruct Hb as (sb & Sb & Cb). destruct (transport_step kb sid TConnected sb kc oc Ec Rc Sb) as [Sc ->]. cbn [sev_of] in *.
    destruct (connected_core sb Cb) as [Cc Oc].
    destruct (run_keeps _ sid n2 (core_stable TRunning [] true) B2 kc kd od Ed Rd) as [Hd Qd]; [eexists; split; [exact Sc|exact Cc]|].
    destruct (push_step kd t2 e2 svc sid req ke oe Ee Re V1 L1 Hd) as [He Qe].
    destruct (run_keeps _ sid n3 (core_stable _ _ _) B3 ke kf of Ef Rf He) as [(sf & Sf & Cf) Qf].
    destruct (transport_step kf sid _ sf kg og Eg Rg Sf) as [Sg ->]. cbn [sev_of] in *. destruct (write_core req len sf Cf L2) as (Cg & Wg & Ig).
    destruct (run_keeps _ sid n4 (core_stable TRunning [] false) B4 kg kh oh Eh Rh) as [(sh & Sh & Ch) Qh]; [eexists; split; [exact Sg|exact Cg]|].
    destruct (transport_step kh sid _ sh k2 oj Ej R2 Sh) as [Sj ->]. cbn [sev_of] in *. destruct (read_core answer w sh Ch L3) as ((K1 & K2 & K3 & K4) & Wj & Ij).
    set (o1 := snd (sess_step sb EConnected)) in *. set (o2 := snd (sess_step sf (ETransport RdPending (WrOk len)))) in *.
    set (o3 := snd (sess_step sh (ETransport (RdData answer) w))) in *.
    set (op := XMgr (OOpen sid (s_type s) match s_mac s with Some m => m | None => 0 end a)) in *.
    set (rest := ha ++ ob ++ [XMgr (OSess sid EConnected o1)] ++ od ++ oe ++ of ++ [XMgr (OSess sid (ETransport RdPending (WrOk len)) o2)] ++ oh ++
                 [XMgr (OSess sid (ETransport (RdData answer) w) o3)] ++ []).
    exists [XRecv e1 m1], rest, (fst (sess_step sh (ETransport (RdData answer) w))).
    assert (EH : ([XRecv e1 m1; op] ++ ha) ++ ob ++ [XMgr (OSess sid EConnected o1)] ++ od ++ oe ++ of ++ [XMgr (OSess sid (ETransport RdPending (WrOk len)) o2)] ++ oh ++
                 [XMgr (OSess sid (ETransport (RdData answer) w) o3)] ++ [] = [XRecv e1 m1] ++ [op] ++ rest) by reflexivity.
    split; [exact EH|]. rewrite EH.
    assert (NO : forall ty mac b, ~ In (OOpen sid ty mac b) (manager_history rest)).
    { intros ty mac b X. unfold rest in X. rewrite !mhist_app in X. repeat (apply in_app_or in X as [X|X]);
        try (match type of X with In _ (manager_history ?l) => match goal with Q : sile sid l |- _ => exact (si_open _ _ Q ty mac b X) end end);
        try (cbn in X; destruct X as [X|[]]; discriminate X); try (cbn in X; exact X). }
    assert (OW : to_service sid (h1 ++ [XRecv e1 m1] ++ [op]) = []).
    { unfold to_service. rewrite !fold_left_app. cbn [fold_left to_service_step op]. now rewrite N.eqb_refl. }
    assert (OR : from_service sid (h1 ++ [XRecv e1 m1] ++ [op]) = []).
    { unfold from_service. rewrite !fold_left_app. cbn [fold_left from_service_step op]. now rewrite N.eqb_refl. }
    replace (h1 ++ [XRecv e1 m1] ++ [op] ++ rest) with ((h1 ++ [XRecv e1 m1] ++ [op]) ++ rest) by (rewrite <- !app_assoc; reflexivity).
    rewrite (to_service_more _ _ _ NO), (from_service_more _ _ _ NO), OW, OR. cbn [app].
    assert (EX : forall x, manager_history [XMgr x] = [x]) by reflexivity.
    unfold rest. rewrite !mhist_app, !effects_app, !written_app, !read_in_app, !EX, !effects_one.
    rewrite (si_written _ _ Qa), (si_written _ _ Qb), (si_written _ _ Qd), (si_written _ _ Qe), (si_written _ _ Qf), (si_written _ _ Qh).
    rewrite (si_read _ _ Qa), (si_read _ _ Qb), (si_read _ _ Qd), (si_read _ _ Qe), (si_read _ _ Qf), (si_read _ _ Qh).
    rewrite Oc, Wg, Wj, Ig, Ij. cbn [app written read_in flat_map]. change (written (effects sid (manager_history []))) with (@nil N). change (read_in (effects sid (manager_history []))) with (@nil N).
    rewrite !app_nil_r. repeat split; assumption.
  Qed.

  Variables (n5 : list kev) (k3 : conn) (h3 : list cobs).
  Hypothesis L4 : nlen answer <= 65536.
  Hypothesis F2 : Forall (bystander sid) n5.
  Hypothesis H3 : conn_run k2 n5 = (k3, h3).
  Hypothesis R3 : k_result k3 = None.
  Hypothesis O1 : control_has_no_address (h1 ++ h2).
  Hypothesis O2 : short_ids (h1 ++ h2).
  Hypothesis P1 : (turns_ahead k2 + 2 * wakeups n5 < client_polls n5)%nat.

  Lemma answered : to_service sid (h1 ++ h2 ++ h3) = req /\ data_out sid (h1 ++ h2 ++ h3) = answer.
  Proof.
    destruct talk as (ha & hb & s2 & _ & TS & FS & S2 & C2 & I2 & W2 & U2).
    pose proof (connection_more _ _ _ _ _ _ _ _ _ _ H1 H2) as HH.
    destruct (run_keeps alive sid n5 alive_stable F2 k2 k3 h3 H3 R3) as [(s3 & S3 & C3) Q]; [exists s2; split; assumption|].
    assert (NI : Forall no_input n5) by (eapply Forall_impl; [intros e; apply bystander_silent|exact F2]).
    pose proof (proj2 (WireFinal.collected _ _ _ _ _ _ _ sid HH O1 O2) s2 R2 S2) as CO. rewrite FS, I2 in CO.
    assert (D2 : data_out sid (h1 ++ h2) = []).
    { destruct (data_out sid (h1 ++ h2)) as [|x l]; [reflexivity|]. exfalso. apply (f_equal (@length N)) in CO. rewrite app_length in CO. cbn in CO. lia. }
    assert (AH : (ahead k2 sid s2 <= turns_ahead k2)%nat).
    { unfold ahead, turns_ahead, acks_ahead. rewrite U2. change (N.to_nat (nlen (@nil N))) with 0%nat. pose proof (position_le sid (g_order (c_mgr (k_ctx k2)))). destruct (0 <? s_written s2); lia. }
    pose proof (flow t i v1 v2 _ k2 _ n5 k3 h3 sid s2 s3 HH H3 R3 O1 O2 NI S2 S3 ltac:(lia)) as [r FL].
    rewrite D2, I2 in FL. cbn [app] in FL. assert (L5 : nlen answer <= s_incap s2) by (rewrite W2; exact L4). clear W2.
    rewrite firstn_all2 in FL by (unfold nlen in L5; lia).
    rewrite !app_assoc. split.
    - rewrite (to_service_more _ _ _ (si_open _ _ Q)), (si_written _ _ Q), app_nil_r. exact TS.
    - rewrite FL. destruct r as [|x r]; [now rewrite app_nil_r|]. exfalso.
      pose proof (connection_more _ _ _ _ _ _ _ _ _ _ HH H3) as HH3.
      destruct (quiet_run n5 k2 k3 h3 H3 NI) as [QQ _].
      assert (O1' : control_has_no_address ((h1 ++ h2) ++ h3)).
      { intros e m y Hi. apply in_app_or in Hi as [Hi|Hi]; [exact (O1 e m y Hi)|]. exfalso. unfold quiet in QQ. rewrite Forall_forall in QQ. exact (QQ _ Hi). }
      assert (O2' : short_ids ((h1 ++ h2) ++ h3)).
      { intros d ty mac b Hi. apply in_app_or in Hi as [Hi|Hi]; [exact (O2 d ty mac b Hi)|]. exfalso. exact (quiet_opened d h3 QQ ty mac b Hi). }
      destruct (proj1 (WireFinal.collected _ _ _ _ _ _ _ sid HH3 O1' O2')) as [z Z].
      rewrite (from_service_more _ _ _ (si_open _ _ Q)), (si_read _ _ Q), FS, app_nil_r, FL in Z.
      apply (f_equal (@length N)) in Z. rewrite !app_length in Z. cbn in Z. lia.
  Qed.
End Talk.
