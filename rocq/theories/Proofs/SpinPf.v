(** C138: tasks do not run in vain. *)
From Coq Require Import NArith ZArith List Bool Lia ZifyBool ZifyNat ZifyN.
From Verif.Model Require Import Bytes Frame Service Control Alist Session Manager Client.
From Verif.Spec Require Import SessionSpec ManagerSpec ClientSpec SpinSpec.
From Verif.Proofs Require Import AlistFacts SessionProofs ManagerProofs ClientInv ClientPropsPf ClientPropsPf2.
Import ListNotations.
Local Open Scope N_scope.

(** ** The transport task *)
Definition moved (o : list sobs) : N := nlen (SessionSpec.read_in o) + nlen (SessionSpec.written o).
Definition credit (s : sess) : N := (if s_tr_run s then 1 else 0) + (if s_closed s then 0 else 1).

Lemma nlen_app' {A} (a b : list A) : nlen (a ++ b) = nlen a + nlen b.
Proof. unfold nlen. rewrite app_length. lia. Qed.
Lemma moved_app a b : moved (a ++ b) = moved a + moved b.
Proof. unfold moved. rewrite SessionProofs.read_in_app, SessionProofs.written_app, !nlen_app'. lia. Qed.

Lemma wake_mgr_tr s : s_tr_run (wake_mgr s) = s_tr_run s /\ s_closed (wake_mgr s) = s_closed s.
Proof. unfold wake_mgr. destruct (s_mgr_waker s); split; reflexivity. Qed.
Lemma close_closed s : s_closed (sess_close s) = true.
Proof. unfold sess_close. rewrite (proj2 (wake_mgr_tr _)). unfold wake_tr. destruct (s_tr_waker _); reflexivity. Qed.
Lemma error_closed s : s_closed (sess_set_error s) = true.
Proof. unfold sess_set_error. destruct (s_closed s) eqn:E; [exact E|apply close_closed]. Qed.

(** A turn that moves nothing and does not close the session leaves the task asleep. *)
Lemma idle_turn s r w s' o :
  s_phase s = TRunning -> (forall n, w = WrOk n -> 0 < n) -> transport_poll s r w = (s', o) ->
  moved o = 0 -> s_closed s' = s_closed s -> s_tr_run s' = false.
Proof.
  intros P W H M C. unfold transport_poll in H. rewrite P in H.
  cbn [s_closed with_tr] in H. destruct (s_closed s) eqn:Ec.
  { injection H as <- <-. reflexivity. }
  destruct (poll_read_input (with_tr s (s_tr_waker s) false) r) as [[rr s1] o1] eqn:Er.
  destruct (poll_write_output s1 w) as [[rw s2] o2] eqn:Ew.
  injection H as <- <-. rewrite moved_app in M.
  assert (C2 : s_closed s2 = false) by (destruct (rr || rw); exact C). clear C.
  assert (R1 : rr = true -> 0 < moved o1 \/ s_closed s1 = true).
  { intros ->. unfold poll_read_input in Er. cbn [s_closed with_tr] in Er. rewrite Ec in Er.
    destruct (BUFFER_CAPACITY <=? _); [discriminate Er|]. destruct r as [|b|]; [discriminate Er| |].
    - destruct b as [|x b]; injection Er as <- <-.
      + right. destruct (s_input (sess_close _)); [|rewrite (proj2 (wake_mgr_tr _))]; apply close_closed.
      + left. unfold moved, SessionSpec.read_in. cbn [map concat app]. unfold nlen. cbn [length app]. lia.
    - injection Er as <- <-. right. destruct (s_input (sess_set_error _)); [|rewrite (proj2 (wake_mgr_tr _))]; apply error_closed. }
  assert (F1 : rr = false -> s_tr_run s1 = false).
  { intros ->. unfold poll_read_input in Er. cbn [s_closed with_tr] in Er. rewrite Ec in Er.
    destruct (BUFFER_CAPACITY <=? _); [injection Er as <- <-; reflexivity|]. destruct r; [|discriminate Er|discriminate Er].
    injection Er as <- <-. reflexivity. }
  assert (K : s_closed s1 = true -> s_closed s2 = true).
  { intros Q. unfold poll_write_output in Ew. rewrite Q in Ew.
    destruct (s_output s1); [injection Ew as <- <- <-; exact Q|]. destruct w as [|m|].
    - injection Ew as <- <- <-. exact Q.
    - injection Ew as <- <- <-. rewrite (proj2 (wake_mgr_tr _)). exact Q.
    - injection Ew as <- <- <-. apply error_closed. }
  destruct rr.
  { destruct (R1 eq_refl) as [X|X]; [lia|]. rewrite (K X) in C2. discriminate C2. }
  assert (C1 : s_closed s1 = false) by (destruct (s_closed s1); [rewrite (K eq_refl) in C2; discriminate C2|reflexivity]).
  assert (R2 : rw = true -> 0 < moved o2 \/ s_closed s2 = true).
  { intros ->. unfold poll_write_output in Ew. rewrite C1 in Ew. destruct (s_output s1) as [|x out] eqn:Eo; [discriminate Ew|].
    destruct w as [|n|]; [discriminate Ew| |].
    - injection Ew as <- <-. left. specialize (W n eq_refl). cbn [s_output with_wait]. rewrite Eo.
      unfold moved, SessionSpec.written. cbn [map concat app]. rewrite app_nil_r. unfold nlen.
      rewrite firstn_length. cbn [length]. lia.
    - injection Ew as <- <-. right. apply error_closed. }
  destruct rw.
  { destruct (R2 eq_refl) as [X|X]; [lia|]. rewrite X in C2. discriminate C2. }
  cbn [orb]. unfold poll_write_output in Ew. destruct (s_output s1).
  - rewrite C1 in Ew. injection Ew as <- <-. cbn [s_tr_run with_tr]. exact (F1 eq_refl).
  - destruct w; [|discriminate Ew|discriminate Ew]. injection Ew as <- <-. cbn [s_tr_run with_tr with_wait]. exact (F1 eq_refl).
Qed.

Lemma closed_stays s e : s_closed s = true -> s_closed (fst (sess_step s e)) = true.
Proof.
  intros C. assert (WT : forall x, s_closed (wake_tr x) = s_closed x) by (intros x; unfold wake_tr; destruct (s_tr_waker x); reflexivity).
  destruct e as [n|p|f| | | |r w| |]; cbn [sess_step].
  - cbn [fst]. unfold sess_data_ack. rewrite (proj2 (wake_mgr_tr _)). exact C.
  - unfold sess_push. rewrite C. exact C.
  - unfold sess_take. destruct (0 <? s_written s); [exact C|]. cbv zeta.
    set (s3 := if _ <? _ then _ else _). assert (C3 : s_closed s3 = true) by (unfold s3; destruct (_ <? _); [rewrite WT|]; exact C).
    destruct (firstn _ _); [|exact C3]. rewrite C3. destruct (s_error s3); [reflexivity|exact C3].
  - apply close_closed.
  - destruct (s_phase s); exact C.
  - destruct (s_phase s); [apply error_closed|exact C|exact C].
  - unfold transport_poll. destruct (s_phase s); [exact C| |exact C]. cbn [s_closed with_tr]. rewrite C. exact C.
  - destruct (s_wait_rd s); exact C.
  - destruct (s_wait_wr s); exact C.
Qed.

Lemma turns_cons e es : turns (e :: es) = (if is_turn e then 1 else 0) + turns es.
Proof. unfold turns, nlen. cbn [filter]. destruct (is_turn e); cbn [length]; lia. Qed.
Lemma outside_cons e es : outside (e :: es) = (if is_turn e then 0 else 1) + outside es.
Proof. unfold outside, nlen. cbn [filter]. destruct (is_turn e); cbn [negb length]; lia. Qed.

Lemma turns_bounded es : forall s s' o,
  run_when_due s es -> writes_something es -> sess_run s es = (s', o) ->
  turns es + credit s' <= credit s + outside es + moved o.
Proof.
  induction es as [|e es IH]; intros s s' o D W H.
  - injection H as <- <-. unfold turns, outside, moved. cbn. lia.
  - cbn [sess_run] in H. destruct D as [D1 D2]. destruct (sess_step s e) as [s1 o1] eqn:E1.
    destruct (sess_run s1 es) as [s2 o2] eqn:E2. injection H as <- <-. rewrite moved_app, turns_cons, outside_cons.
    cbn [fst] in D2.
    assert (W' : writes_something es) by (intros r n Hn; apply (W r n); right; exact Hn).
    specialize (IH s1 s2 o2 D2 W' E2).
    pose proof (closed_stays s e) as CS. rewrite E1 in CS. cbn [fst] in CS.
    assert (ST : (if is_turn e then 1 else 0) + credit s1 <= credit s + (if is_turn e then 0 else 1) + moved o1).
    { destruct (is_turn e) eqn:T.
      - destruct e as [| | | | | |r w| |]; try discriminate T. destruct D1 as [D1 D3]. cbn [sess_step] in E1.
        pose proof (idle_turn s r w s1 o1 D1) as X.
        assert (Wn : forall n, w = WrOk n -> 0 < n) by (intros n ->; apply (W r n); left; reflexivity).
        specialize (X Wn E1). unfold credit. rewrite D3. destruct (N.eq_dec (moved o1) 0) as [M|M].
        + destruct (s_closed s) eqn:Ca.
          * rewrite (CS eq_refl) in *. rewrite (X M eq_refl). lia.
          * destruct (s_closed s1) eqn:Cb; [destruct (s_tr_run s1); lia|]. rewrite (X M eq_refl). lia.
        + destruct (s_closed s) eqn:Ca; [rewrite (CS eq_refl)|]; destruct (s_tr_run s1); try destruct (s_closed s1); lia.
      - unfold credit. destruct (s_closed s) eqn:Ca; [rewrite (CS eq_refl)|]; destruct (s_tr_run s1), (s_tr_run s); try destruct (s_closed s1); lia. }
    lia.
Qed.

Lemma no_spin svc sid W es s o :
  run_when_due (sess_new svc sid W) es -> writes_something es -> sess_run (sess_new svc sid W) es = (s, o) ->
  turns es <= 2 + outside es + nlen (SessionSpec.read_in o) + nlen (SessionSpec.written o).
Proof.
  intros D WS H. pose proof (turns_bounded es _ s o D WS H) as X. unfold credit, moved in X. cbn [s_tr_run s_closed sess_new] in X. lia.
Qed.

(** ** The connection task *)
Definition quiet (g : mgr) (sid : N) : Prop := forall s, find_sess g sid = Some s -> s_mgr_run s = false.

Lemma take_pending f s s' f' o : sess_take f s = (TkPending, s', f', o) -> s_mgr_run s' = false.
Proof.
  unfold sess_take. destruct (0 <? s_written s); [discriminate|]. cbv zeta. destruct (firstn _ _); [|discriminate].
  destruct (s_closed _); [destruct (s_error _); discriminate|]. intros H. injection H as <- <- <-. reflexivity.
Qed.

Lemma poll_quiet n : forall g a b g' o,
  g_order g = a ++ b -> length a = n -> (forall sid, In sid b -> quiet g sid) ->
  poll_loop n g = (false, g', o) -> forall sid, In sid (g_order g') -> quiet g' sid.
Proof.
  induction n as [|n IH]; intros g a b g' o Eo L Q H; cbn [poll_loop] in H.
  - injection H as <- <-. destruct a; [|discriminate L]. rewrite Eo. exact Q.
  - destruct a as [|sid a]; [discriminate L|]. injection L as L. rewrite Eo in H. cbn [app] in H. cbv zeta in H.
    set (g0 := set_order g (a ++ b)) in *. destruct (find_sess g0 sid) as [s|] eqn:Es.
    + destruct (sess_take (g_factory g0) s) as [[[t s'] f'] oo] eqn:Et. destruct t as [m| | |].
      * discriminate H.
      * unfold create_hup in H. cbn [next_id] in H. discriminate H.
      * unfold create_hup in H. cbn [next_id] in H. discriminate H.
      * destruct (poll_loop n _) as [[r g3] os] eqn:Ep. injection H as -> -> _.
        refine (IH _ a (b ++ [sid]) g' os _ L _ Ep); [gsimp; cbn [g0 g_order set_order]; symmetry; apply app_assoc|].
        intros k Hk x Hx. unfold find_sess in Hx. gsimp. rewrite alookup_insert in Hx.
        destruct (N.eqb_spec k sid) as [->|Hn].
        -- injection Hx as <-. exact (take_pending _ _ _ _ _ Et).
        -- apply in_app_or in Hk. destruct Hk as [Hk|[Hk|[]]]; [|congruence]. exact (Q k Hk x Hx).
    + refine (IH g0 a b g' o eq_refl L _ H). exact Q.
Qed.

(** What a poll of the context leaves behind when it has nothing. *)
Definition rested (c : ctx) : Prop :=
  c_run c = false /\ g_run (c_mgr c) = false /\ forall sid, In sid (g_order (c_mgr c)) -> quiet (c_mgr c) sid.

Lemma loop_says n : forall g g' o, poll_loop n g = (true, g', o) -> polled_msg o <> None.
Proof.
  induction n as [|n IH]; intros g g' o H; cbn [poll_loop] in H; [discriminate H|].
  destruct (g_order g) as [|sid rest]; [exact (IH _ _ _ H)|]. cbv zeta in H.
  destruct (find_sess _ sid) as [s|]; [|exact (IH _ _ _ H)].
  destruct (sess_take _ s) as [[[t s'] f'] oo]. destruct t as [m| | |].
  - injection H as _ <-. discriminate.
  - unfold create_hup in H. cbn [next_id] in H. injection H as _ <-. discriminate.
  - unfold create_hup in H. cbn [next_id] in H. injection H as _ <-. discriminate.
  - destruct (poll_loop n _) as [[r g3] os] eqn:Ep. injection H as -> -> <-. cbn [polled_msg]. exact (IH _ _ _ Ep).
Qed.

Lemma ctx_rested c c' o : ctx_poll c = (PPending, c', o) -> rested c'.
Proof.
  unfold ctx_poll. destruct (is_closed c); [discriminate|]. destruct (c_messages c); [|discriminate].
  unfold mgr_poll. destruct (g_queue (c_mgr c)); [|discriminate].
  destruct (poll_loop (length (g_order (c_mgr c))) (c_mgr c)) as [[r g1] ob] eqn:Ep. destruct r.
  - pose proof (loop_says _ _ _ _ Ep) as X. destruct (polled_msg ob); [discriminate|contradiction].
  - destruct (polled_msg ob); [discriminate|]. intros H. injection H as <- _.
    split; [reflexivity|]. split; [reflexivity|].
    refine (poll_quiet _ (c_mgr c) (g_order (c_mgr c)) [] g1 ob _ eq_refl _ Ep); [now rewrite app_nil_r|]. intros sid [].
Qed.

Lemma loop_rested items : forall c c' o, client_loop c items = (PPending, c', o) -> rested c'.
Proof.
  induction items as [|i items IH]; intros c c' o H; cbn [client_loop] in H;
    destruct (ctx_poll c) as [[p c1] o1] eqn:Ec; destruct p; try discriminate H.
  - injection H as <- <-. exact (ctx_rested _ _ _ Ec).
  - destruct (feed_item c1 i) as [[r c2] o2]. destruct r; [discriminate H|].
    destruct (client_loop c2 items) as [[p' c3] o3] eqn:El. injection H as -> -> _. exact (IH _ _ _ El).
Qed.

Lemma poll_rested c items c' o : client_poll c items = (PPending, c', o) -> rested c'.
Proof.
  destruct items as [|i items]; [exact (loop_rested [] c c' o)|]. cbn [client_poll].
  destruct (feed_item c i) as [[r c1] o1]. destruct r; [discriminate|].
  destruct (client_loop c1 items) as [[p' c3] o3] eqn:El. intros H. injection H as -> -> _. exact (loop_rested _ _ _ _ El).
Qed.

Lemma in_find {V} k (v : V) l : NoDup (map fst l) -> In (k, v) l -> alookup k l = Some v.
Proof.
  induction l as [|[a x] l IH]; intros ND H; [destruct H|]. inversion ND as [|? ? N1 N2]; subst. cbn [alookup].
  destruct H as [H|H].
  - injection H as -> ->. now rewrite N.eqb_refl.
  - destruct (N.eqb_spec k a) as [->|_]; [|now apply IH]. exfalso. apply N1. apply in_map_iff. exists (a, v). split; [reflexivity|exact H].
Qed.

Lemma rested_asleep t0 i v1 v2 es k h :
  connection t0 i v1 v2 es = (k, h) -> k_result k = None -> rested (k_ctx k) -> awake k = false.
Proof.
  intros H R (A & B & Q). destruct (connection_manager _ _ _ _ _ _ _ H R) as [mes Em].
  unfold awake. rewrite A, B. cbn [orb]. apply not_true_iff_false. intros X. apply existsb_exists in X as ([sid s] & X1 & X2). cbn [snd] in X2.
  pose proof (mgr_run_keys 65536 (id_gateway i) 0 mes) as ND. rewrite Em in ND. cbn [fst] in ND.
  pose proof (in_find sid s _ ND X1) as F. pose proof (mgr_run_inv 65536 (id_gateway i) 0 mes) as I. rewrite Em in I.
  assert (In sid (g_order (c_mgr (k_ctx k)))) as O1.
  { apply (si_order _ _ _ I). unfold is_live, find_sess. now rewrite F. }
  rewrite (Q sid O1 s F) in X2. discriminate X2.
Qed.

Lemma connection_snoc t0 i v1 v2 es e :
  connection t0 i v1 v2 (es ++ [e]) =
  let '(k, h) := connection t0 i v1 v2 es in let '(k', o) := conn_step k e in (k', h ++ o).
Proof.
  unfold connection. destruct (conn_new t0 i v1 v2) as [k0 o0].
  assert (X : forall l k, conn_run k (l ++ [e]) = let '(k1, h1) := conn_run k l in let '(k', o) := conn_step k1 e in (k', h1 ++ o)).
  { induction l as [|x l IH]; intros k.
    - cbn [app conn_run]. destruct (conn_step k e) as [k1 o1]. now rewrite app_nil_r.
    - cbn [app conn_run]. destruct (conn_step k x) as [k1 o1]. rewrite IH. destruct (conn_run k1 l) as [k2 h2].
      destruct (conn_step k2 e) as [k3 o3]. now rewrite app_assoc. }
  rewrite X. destruct (conn_run k0 es) as [k1 h1]. destruct (conn_step k1 e) as [k3 o3]. now rewrite app_assoc.
Qed.

(** A poll that neither ends the connection nor hands over a message leaves the task asleep. *)
Lemma idle_poll t0 i v1 v2 es items k h k' o :
  connection t0 i v1 v2 es = (k, h) -> k_result k = None -> conn_step k (KPoll items) = (k', o) ->
  k_result k' = None -> ClientSpec.sent o = [] -> awake k' = false.
Proof.
  intros H R E R' S. pose proof (connection_snoc t0 i v1 v2 es (KPoll items)) as X. rewrite H, E in X.
  refine (rested_asleep _ _ _ _ _ _ _ X R' _).
  unfold conn_step in E. rewrite R in E. destruct (client_poll (k_ctx k) items) as [[p c1] o1] eqn:Ep. destruct p.
  - injection E as <- <-. rewrite ClientInv.sent_app in S. apply app_eq_nil in S as [_ S]. discriminate S.
  - injection E as <- <-. discriminate R'.
  - injection E as <- <-. discriminate R'.
  - injection E as <- <-. exact (poll_rested _ _ _ _ Ep).
Qed.

Definition k_credit (k : conn) : N := match k_result k with None => if awake k then 1 else 0 | Some _ => 0 end.

Lemma idle_snoc es e : idle_polls (es ++ [e]) = idle_polls es + (if is_idle_poll e then 1 else 0).
Proof. unfold idle_polls. rewrite filter_app, nlen_app'. cbn [filter]. destruct (is_idle_poll e); reflexivity. Qed.
Lemma causes_snoc es e : causes (es ++ [e]) = causes es + (if is_idle_poll e then 0 else 1).
Proof. unfold causes. rewrite filter_app, nlen_app'. cbn [filter]. destruct (is_idle_poll e); reflexivity. Qed.
Lemma due_snoc es e : forall k, polled_when_due k (es ++ [e]) ->
  polled_when_due k es /\ match e with KPoll [] => k_result (fst (conn_run k es)) = None /\ awake (fst (conn_run k es)) = true | _ => True end.
Proof.
  induction es as [|x es IH]; intros k H.
  - destruct H as [H _]. split; [exact I|exact H].
  - destruct H as [H1 H2]. destruct (IH _ H2) as [A B]. split; [split; assumption|].
    cbn [conn_run]. destruct (conn_step k x) as [k1 o1]. cbn [fst] in B. destruct (conn_run k1 es) as [k2 o2]. exact B.
Qed.

Lemma polls_bounded t0 i v1 v2 es : forall k h,
  polled_when_due (fst (conn_new t0 i v1 v2)) es -> connection t0 i v1 v2 es = (k, h) ->
  idle_polls es + k_credit k <= 1 + causes es + nlen (ClientSpec.sent h).
Proof.
  induction es as [|e es IH] using rev_ind; intros k h D H.
  - unfold idle_polls, causes, k_credit. change (nlen (filter is_idle_poll [])) with 0.
    destruct (k_result k); [lia|]. destruct (awake k); lia.
  - apply due_snoc in D as [D1 D2]. rewrite connection_snoc in H. destruct (connection t0 i v1 v2 es) as [k0 h0] eqn:E0.
    specialize (IH k0 h0 D1 eq_refl). destruct (conn_step k0 e) as [k1 o1] eqn:E1. injection H as <- <-.
    rewrite idle_snoc, causes_snoc, ClientInv.sent_app, nlen_app'.
    assert (Ek : fst (conn_run (fst (conn_new t0 i v1 v2)) es) = k0).
    { unfold connection in E0. destruct (conn_new t0 i v1 v2) as [kk oo]. cbn [fst]. destruct (conn_run kk es). injection E0 as -> _. reflexivity. }
    rewrite Ek in D2. destruct (is_idle_poll e) eqn:Ie.
    + destruct e as [[|it its]| | |]; try discriminate Ie. destruct D2 as [R A].
      unfold k_credit in IH. rewrite R, A in IH.
      unfold k_credit. destruct (k_result k1) eqn:R1; [lia|].
      destruct (ClientSpec.sent o1) as [|m ms] eqn:So.
      * rewrite (idle_poll _ _ _ _ _ _ _ _ _ _ E0 R E1 R1 So). lia.
      * unfold nlen at 2. cbn [length]. destruct (awake k1); lia.
    + unfold k_credit. destruct (k_result k1); [lia|]. destruct (awake k1); lia.
Qed.

Lemma no_idle_spin t0 i v1 v2 es k h :
  polled_when_due (fst (conn_new t0 i v1 v2)) es -> connection t0 i v1 v2 es = (k, h) ->
  idle_polls es <= 1 + causes es + nlen (ClientSpec.sent h).
Proof. intros D H. pose proof (polls_bounded _ _ _ _ _ _ _ D H). lia. Qed.

(** ** A stream that takes nothing *)
Definition zero_turns (k : nat) : list sev := [EConnected; EPush [1]] ++ repeat (ETransport RdPending (WrOk 0)) k.

Definition stuck (s : sess) : Prop :=
  s_phase s = TRunning /\ s_tr_run s = true /\ s_closed s = false /\ s_input s = [] /\ s_output s = [1] /\ s_mgr_waker s = false.

Lemma stuck_step s : stuck s -> exists s', transport_poll s RdPending (WrOk 0) = (s', [Wrote []]) /\ stuck s'.
Proof.
  intros (A & B & C & D & E & F). unfold transport_poll. rewrite A. cbn [s_closed with_tr]. rewrite C.
  unfold poll_read_input. cbn [s_closed with_tr s_input]. rewrite C, D. change (BUFFER_CAPACITY <=? nlen []) with false. cbv iota.
  unfold poll_write_output. cbn [s_closed with_tr s_output with_wait]. rewrite E. cbv zeta.
  cbn [s_closed with_tr s_output with_wait]. eexists. split; [reflexivity|].
  unfold wake_mgr. cbn [s_mgr_waker with_caps with_output with_wait with_tr]. rewrite F. repeat split; assumption.
Qed.

Lemma stuck_run k : forall s, stuck s ->
  run_when_due s (repeat (ETransport RdPending (WrOk 0)) k) /\
  exists s', sess_run s (repeat (ETransport RdPending (WrOk 0)) k) = (s', repeat (Wrote []) k) /\ stuck s'.
Proof.
  induction k as [|k IH]; intros s S; cbn [repeat].
  - split; [exact I|]. exists s. split; [reflexivity|exact S].
  - destruct (stuck_step s S) as (s1 & E1 & S1). destruct (IH s1 S1) as (D & s2 & E2 & S2). cbn [run_when_due sess_run sess_step]. rewrite E1.
    cbn [fst]. rewrite E2. split; [split; [split; [apply S|apply S]|exact D]|]. exists s2. split; [reflexivity|exact S2].
Qed.

Lemma zero_spins k : exists s o,
  run_when_due (sess_new 5 1 65536) (zero_turns k) /\ sess_run (sess_new 5 1 65536) (zero_turns k) = (s, o) /\
  turns (zero_turns k) = N.of_nat k /\ outside (zero_turns k) = 2 /\ SessionSpec.read_in o = [] /\ SessionSpec.written o = [].
Proof.
  pose (s2 := fst (sess_run (sess_new 5 1 65536) [EConnected; EPush [1]])).
  assert (S : stuck s2) by (repeat split). destruct (stuck_run k s2 S) as (D & s' & E & _).
  exists s', (Accepted [1] :: repeat (Wrote []) k). split; [split; [exact I|split; [exact I|exact D]]|].
  split; [unfold zero_turns; cbn [app sess_run]; change (sess_step (sess_new 5 1 65536) EConnected) with (fst (sess_step (sess_new 5 1 65536) EConnected), @nil sobs);
          cbv beta iota; change (sess_step (fst (sess_step (sess_new 5 1 65536) EConnected)) (EPush [1])) with (s2, [Accepted [1]]);
          cbv beta iota; rewrite E; reflexivity|].
  assert (T : forall j, turns (repeat (ETransport RdPending (WrOk 0)) j) = N.of_nat j /\ outside (repeat (ETransport RdPending (WrOk 0)) j) = 0).
  { induction j as [|j [IH1 IH2]]; [split; reflexivity|]. cbn [repeat]. rewrite turns_cons, outside_cons, IH1, IH2. cbn [is_turn]. lia. }
  destruct (T k) as [T1 T2]. unfold zero_turns. cbn [app]. rewrite !turns_cons, !outside_cons, T1, T2. cbn [is_turn].
  split; [lia|]. split; [lia|].
  split; unfold SessionSpec.read_in, SessionSpec.written; cbn [map concat app]; clear; induction k as [|k IH]; [reflexivity|exact IH|reflexivity|exact IH].
Qed.

(** ** What the transport task waits for *)
Definition waits_well (s : sess) : Prop :=
  (s_wait_wr s = true -> s_output s <> []) /\ (s_wait_rd s = true -> nlen (s_input s) < BUFFER_CAPACITY) /\
  (s_phase s = TConnecting -> s_wait_rd s = false /\ s_wait_wr s = false).
Lemma ww_frame s s' : s_wait_wr s' = s_wait_wr s -> s_wait_rd s' = s_wait_rd s -> s_output s' = s_output s -> s_input s' = s_input s -> s_phase s' = s_phase s ->
  waits_well s -> waits_well s'.
Proof. unfold waits_well. intros -> -> -> -> -> H. exact H. Qed.
Lemma ww_wake_mgr s : waits_well s -> waits_well (wake_mgr s).
Proof. apply ww_frame; unfold wake_mgr; destruct (s_mgr_waker s); reflexivity. Qed.
Lemma ww_wake_tr s : waits_well s -> waits_well (wake_tr s).
Proof. apply ww_frame; unfold wake_tr; destruct (s_tr_waker s); reflexivity. Qed.
Lemma ww_close s : waits_well s -> waits_well (sess_close s).
Proof. intros H. unfold sess_close. apply ww_wake_mgr, ww_wake_tr. exact H. Qed.
Lemma ww_error s : waits_well s -> waits_well (sess_set_error s).
Proof. intros H. unfold sess_set_error. destruct (s_closed s); [exact H|]. now apply ww_close. Qed.

Lemma ww_read s r : s_phase s <> TConnecting -> waits_well s -> waits_well (snd (fst (poll_read_input s r))) /\ s_phase (snd (fst (poll_read_input s r))) = s_phase s.
Proof.
  intros P H. unfold poll_read_input. destruct (s_closed s); [split; [exact H|reflexivity]|]. destruct (N.leb_spec BUFFER_CAPACITY (nlen (s_input s))) as [L|L]; [split; [exact H|reflexivity]|].
  assert (K : forall s1 : sess, s_phase s1 = s_phase s -> waits_well s1 -> waits_well (match s_input s1 with [] => s1 | _ => wake_mgr s1 end) /\ s_phase (match s_input s1 with [] => s1 | _ => wake_mgr s1 end) = s_phase s).
  { intros s1 E W. destruct (s_input s1); [split; assumption|]. split; [now apply ww_wake_mgr|]. rewrite <- E. unfold wake_mgr. destruct (s_mgr_waker s1); reflexivity. }
  assert (W0 : forall x, waits_well (with_input (with_wait s false (s_wait_wr s)) x)).
  { intros x. destruct H as (A & B & C). split; [exact A|]. split; [intros X; discriminate X|]. intros X. exfalso. exact (P X). }
  destruct r as [|b|]; cbn [fst snd].
  - split; [|reflexivity]. destruct H as (A & B & C). split; [exact A|]. split; [intros _; exact L|]. intros X. exfalso. exact (P X).
  - destruct b as [|b0 b]; apply K.
    + unfold sess_close, wake_mgr, wake_tr. cbn [s_tr_waker with_closed with_wait]. destruct (s_tr_waker s); cbn [s_mgr_waker with_tr with_closed with_wait]; destruct (s_mgr_waker s); reflexivity.
    + apply ww_close. exact (W0 (s_input s)).
    + reflexivity.
    + apply W0.
  - apply K.
    + unfold sess_set_error. destruct (s_closed _); [reflexivity|]. unfold sess_close, wake_mgr, wake_tr. cbn [s_tr_waker with_closed with_wait]. destruct (s_tr_waker s); cbn [s_mgr_waker with_tr with_closed with_wait]; destruct (s_mgr_waker s); reflexivity.
    + apply ww_error. exact (W0 (s_input s)).
Qed.

Lemma ww_write s w : s_phase s <> TConnecting -> waits_well s -> waits_well (snd (fst (poll_write_output s w))).
Proof.
  intros P H. unfold poll_write_output. destruct (s_output s) as [|x l] eqn:O; [destruct (s_closed s); exact H|]. destruct H as (A & B & C).
  assert (W0 : forall l', waits_well (with_output (with_wait s (s_wait_rd s) false) l')).
  { intros l'. split; [intros X; discriminate X|]. split; [exact B|]. intros X. exfalso. exact (P X). }
  destruct w as [|n|]; cbn [fst snd].
  - split; [cbn [s_output with_wait with_tr]; rewrite O; discriminate|]. split; [exact B|]. intros X. exfalso. exact (P X).
  - apply ww_wake_mgr. apply W0.
  - apply ww_error. exact (W0 (s_output s)).
Qed.

Lemma ww_step s e : waits_well s -> waits_well (fst (sess_step s e)).
Proof.
  intros H. destruct e as [n|p|f| | | |r w| |]; cbn [sess_step].
  - apply ww_wake_mgr. exact H.
  - unfold sess_push. destruct (s_closed s); [exact H|]. destruct (_ <? _); [now apply ww_error|]. cbv zeta. cbn [fst].
    assert (W : waits_well (with_output (with_caps s (s_incap s) (s_outcap s - nlen p) (s_written s)) (s_output s ++ p))).
    { destruct H as (A & B & C). split; [|split; [exact B|exact C]]. intros X Y. apply app_eq_nil in Y as [Y _]. exact (A X Y). }
    destruct (s_output _) in |- *; [exact W|now apply ww_wake_tr].
  - unfold sess_take. destruct (0 <? s_written s); [exact H|]. cbv zeta.
    set (s2 := with_input _ _). assert (W : waits_well s2).
    { destruct H as (A & B & C). split; [exact A|]. split; [|exact C]. intros X. specialize (B X). subst s2. cbn [s_input with_input with_caps]. unfold nlen in *. rewrite skipn_length. lia. }
    set (s3 := if nlen (s_input s2) <? BUFFER_CAPACITY then wake_tr s2 else s2). assert (W3 : waits_well s3) by (subst s3; destruct (_ <? _); [now apply ww_wake_tr|exact W]).
    clearbody s3. destruct (firstn _ _); [|exact W3]. destruct (s_closed s3); [destruct (s_error s3)|]; exact W3.
  - now apply ww_close.
  - destruct (s_phase s) eqn:P; try exact H. destruct H as (A & B & C). split; [exact A|]. split; [exact B|]. intros X. discriminate X.
  - destruct (s_phase s) eqn:P; try exact H. pose proof (ww_error s H) as (A & B & C). split; [exact A|]. split; [exact B|]. intros X. discriminate X.
  - unfold transport_poll. destruct (s_phase s) eqn:P; try exact H. destruct (s_closed _); [split; [exact (proj1 H)|split; [exact (proj1 (proj2 H))|intros X; discriminate X]]|].
    assert (P1 : s_phase (with_tr s (s_tr_waker s) false) <> TConnecting) by (cbn [s_phase with_tr]; rewrite P; discriminate).
    pose proof (ww_read _ r P1 (H : waits_well (with_tr s (s_tr_waker s) false))) as [R1 R2]. destruct (poll_read_input _ r) as [[rr s1] o1]. cbn [fst snd] in *.
    assert (P2 : s_phase s1 <> TConnecting) by (rewrite R2; exact P1). pose proof (ww_write s1 w P2 R1) as W2. destruct (poll_write_output s1 w) as [[rw s2] o2].
    cbn [fst snd] in *. destruct (rr || rw); exact W2.
  - destruct (s_wait_rd s) eqn:E; [|exact H]. destruct H as (A & B & C). split; [exact A|]. split; [intros X; discriminate X|]. intros X. destruct (C X). split; [reflexivity|assumption].
  - destruct (s_wait_wr s) eqn:E; [|exact H]. destruct H as (A & B & C). split; [intros X; discriminate X|]. split; [exact B|]. intros X. destruct (C X). split; [assumption|reflexivity].
Qed.

Lemma ww_run es : forall s s' o, waits_well s -> sess_run s es = (s', o) -> waits_well s'.
Proof.
  induction es as [|e es IH]; intros s s' o W H; cbn [sess_run] in H; [injection H as <- _; exact W|].
  pose proof (ww_step s e W) as W1. destruct (sess_step s e) as [s1 o1]. destruct (sess_run s1 es) as [s2 o2] eqn:R. injection H as <- _. exact (IH _ _ _ W1 R).
Qed.
Lemma waits_for svc sid W es s o : sess_run (sess_new svc sid W) es = (s, o) ->
  (s_wait_wr s = true -> s_phase s <> TConnecting /\ s_output s <> []) /\
  (s_wait_rd s = true -> s_phase s <> TConnecting /\ nlen (s_input s) < 8192).
Proof.
  intros H. assert (W0 : waits_well (sess_new svc sid W)) by (split; [discriminate|]; split; [discriminate|]; split; reflexivity).
  destruct (ww_run _ _ _ _ W0 H) as (A & B & C). split; intros X; (split; [intros P; destruct (C P); congruence|]); [exact (A X)|exact (B X)].
Qed.
