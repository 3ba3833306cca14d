(** The queue of control messages stays short. *)
From Coq Require Import NArith ZArith List Bool Lia ZifyBool ZifyNat ZifyN.
From Verif.Model Require Import Bytes Frame Service Control Alist Session Manager Client.
From Verif.Spec Require Import SessionSpec ManagerSpec ClientSpec QueueSpec.
From Verif.Proofs Require Import WireRun EndToEnd.
Import ListNotations.
Local Open Scope N_scope.

Definition waits (c : ctx) : nat := (length (c_messages c) + length (g_queue (c_mgr c)))%nat.

(** Everything but the queues. *)
Definition still (c c' : ctx) : Prop := c_acks c' = c_acks c /\ c_last_ping c' = c_last_ping c.

Lemma updates_app a b : updates (a ++ b) = (updates a + updates b)%nat.
Proof. unfold updates. now rewrite filter_app, app_length. Qed.
Lemma updates_mgr o : updates (map XMgr o) = 0%nat.
Proof. unfold updates. induction o as [|x o IH]; [reflexivity|exact IH]. Qed.
Lemma wake_queue g : g_queue (wake_task g) = g_queue g.
Proof. unfold wake_task. now destruct (g_task g). Qed.

Lemma connect_queue g get svc sid g' o : mgr_connect g get svc sid = (g', o) -> (length (g_queue g') <= S (length (g_queue g)))%nat.
Proof.
  unfold mgr_connect. destruct (connect_inner g get svc sid) as [[[t mac] a]|].
  - intros H. injection H as <- <-. cbn [set_sess set_sessions g_queue]. rewrite wake_queue. cbn [set_order g_queue]. lia.
  - unfold create_hup. destruct (next_id (g_factory g)) as [id f]. intros H. injection H as <- <-.
    rewrite wake_queue. cbn [set_queue set_factory g_queue]. rewrite app_length. cbn [length]. lia.
Qed.
Lemma send_queue g m g' o : mgr_send g m = (g', o) -> (length (g_queue g') <= S (length (g_queue g)))%nat.
Proof.
  unfold mgr_send. destruct (find_sess g (m_session m)) as [s|].
  - destruct (sess_step s (EPush (m_payload m))) as [s' so]. intros H. injection H as <- <-. cbn [set_sess set_sessions g_queue]. lia.
  - unfold create_hup. destruct (next_id (g_factory g)) as [id f]. intros H. injection H as <- <-.
    rewrite wake_queue. cbn [set_queue set_factory g_queue]. rewrite app_length. cbn [length]. lia.
Qed.
Lemma close_queue g sid g' o : mgr_close g sid = (g', o) -> g_queue g' = g_queue g.
Proof.
  unfold mgr_close. destruct (find_sess g sid) as [s|]; [|now intros H; injection H as <- <-].
  destruct (sess_step s EClose) as [s' so]. intros H. injection H as <- <-. reflexivity.
Qed.
Lemma data_ack_queue g sid n g' o : mgr_data_ack g sid n = (g', o) -> g_queue g' = g_queue g.
Proof.
  unfold mgr_data_ack. destruct (find_sess g sid) as [s|]; [|now intros H; injection H as <- <-].
  destruct (sess_step s (EDataAck n)) as [s' so]. intros H. injection H as <- <-. reflexivity.
Qed.
Lemma loop_queue n : forall g r g' o, poll_loop n g = (r, g', o) -> g_queue g' = g_queue g.
Proof.
  induction n as [|n IH]; intros g r g' o H; cbn [poll_loop] in H; [now injection H as <- <- <-|].
  destruct (g_order g) as [|sid rest]; [now apply IH in H|].
  destruct (find_sess (set_order g rest) sid) as [s|]; [|now apply IH in H].
  destruct (sess_take (g_factory (set_order g rest)) s) as [[[t s'] f'] so]; destruct t.
  all: try (unfold create_hup in H; match type of H with context [next_id ?f] => destruct (next_id f) as [id ff] end; injection H as <- <- <-; reflexivity).
  all: try (match type of H with context [poll_loop ?n0 ?g0] => destruct (poll_loop n0 g0) as [[r1 g3] os] eqn:E end; injection H as <- <- <-; apply IH in E; exact E).
  all: injection H as <- <- <-; reflexivity.
Qed.

(** A message adds at most one reply; an acknowledgement adds none and removes the expectation. *)
Definition fed (c c' : ctx) (o : list cobs) : Prop :=
  updates o = 0%nat /\ c_last_ping c' = c_last_ping c /\
  ((c_acks c' = c_acks c /\ (waits c' <= S (waits c))%nat) \/ (waits c' = waits c /\ exists x, c_acks c = x :: c_acks c')).

Lemma send_control_waits t c m c' o : send_control t c m = (c', o) -> waits c' = S (waits c) /\ still c c' /\ o = [XQueue t m].
Proof.
  unfold send_control, waits, still. intros H. injection H as <- <-. cbn [set_messages c_task].
  destruct (c_task c); cbn [set_ctask set_messages c_messages c_mgr c_acks c_last_ping]; rewrite app_length; cbn [length];
    (split; [lia|auto]).
Qed.

Lemma control_fed t e c m r c' o : process_control t e c m = (r, c', o) -> r = None -> fed c c' o.
Proof.
  intros H ->. unfold process_control in H.
  destruct (message_type (cm_type m)) eqn:T, (cm_body m) eqn:B;
    repeat match type of H with context [if c_established c then _ else _] => destruct (c_established c) end;
    try discriminate H.
  all: try (destruct (process_ack e c (cm_id m) err) as [rr cc] eqn:P; injection H as -> <- <-;
            unfold process_ack in P; destruct (c_acks c) as [|[t0 x] rest] eqn:Q; [discriminate|];
            destruct (cm_id m =? x); [|discriminate];
            destruct (c_established c);
            [injection P as <-; split; [reflexivity|]; split; [reflexivity|]; right; split; [reflexivity|]; rewrite Q; now exists (t0, x)|];
            unfold handshake_ack in P;
            repeat match type of P with context [if ?b then _ else _] => destruct b end; try discriminate P;
            injection P as <-; (split; [reflexivity|]); (split; [reflexivity|]); right; (split; [reflexivity|]); rewrite Q; now exists (t0, x)).
  all: try (match type of H with (None, fst ?X, snd ?X) = _ => destruct X as [c1 o1] eqn:K end;
            apply triple in H as (_ & <- & <-); cbn [fst snd]; unfold lift_mgr in K;
            match type of K with (match ?Y with _ => _ end) = _ => destruct Y as [g mo] eqn:G end;
            injection K as <- <-;
            (split; [apply updates_mgr|]); (split; [reflexivity|]); left; (split; [reflexivity|]); unfold waits; cbn [set_mgr c_messages c_mgr];
            first [apply connect_queue in G|apply close_queue in G|apply data_ack_queue in G]; try rewrite G; lia).
  all: try (match type of H with (None, fst (send_control ?t0 ?d ?mm), _) = _ => destruct (send_control t0 d mm) as [c1 o1] eqn:K end;
            apply triple in H as (_ & <- & <-); cbn [fst snd]; apply send_control_waits in K as (W & [S1 S2] & ->);
            split; [reflexivity|]; split; [exact S2|]; left; split; [exact S1|]; lia).
  all: try (apply triple in H as (_ & <- & <-); cbn [fst snd]; split; [reflexivity|]; cbn [set_redirect c_task];
            destruct (c_task c); (split; [reflexivity|]); left; (split; [reflexivity|]); unfold waits; cbn; lia).
  all: try (match type of H with (None, fst (match ?X with _ => _ end), _) = _ => unfold c_next_id in H; destruct (next_id (g_factory (c_mgr c))) as [idd ff] end;
            match type of H with (None, fst (send_control ?t0 ?d ?mm), _) = _ => destruct (send_control t0 d mm) as [c1 o1] eqn:K end;
            apply triple in H as (_ & <- & <-); cbn [fst snd]; apply send_control_waits in K as (W & [S1 S2] & ->);
            split; [reflexivity|]; split; [exact S2|]; left; split; [exact S1|];
            unfold waits in *; cbn [set_mgr set_factory c_messages c_mgr g_queue] in *; lia).
Qed.

Lemma message_fed t e c m r c' o : process_message t e c m = (r, c', o) -> r = None -> fed c c' o.
Proof.
  intros H ->. unfold process_message in H. destruct (is_closed c).
  { injection H as <- <-. split; [reflexivity|]. split; [reflexivity|]. left. split; [reflexivity|lia]. }
  match type of H with (match ?X with _ => _ end) = _ => destruct X as [[r0 c0] o0] eqn:X0 end.
  injection H as -> <- <-. change (fed c c0 ([XRecv e m] ++ o0)).
  assert (F : fed c c0 o0).
  { destruct (m_service m =? 0).
    - destruct (cmsg_from_bytes (m_payload m)); [|discriminate|discriminate]. eapply control_fed; eauto.
    - destruct (c_established c); [|discriminate]. unfold lift_mgr in X0.
      destruct (mgr_send (c_mgr c) m) as [g mo] eqn:G. injection X0 as <- <-. apply send_queue in G.
      split; [apply updates_mgr|]. split; [reflexivity|]. left. split; [reflexivity|]. unfold waits. cbn [set_mgr c_messages c_mgr]. lia. }
  destruct F as (A & B). split; [rewrite updates_app, A; reflexivity|exact B].
Qed.
Lemma item_fed c i r c' o : feed_item c i = (r, c', o) -> r = None -> fed c c' o.
Proof.
  destruct i as [t e m| |]; cbn [feed_item]; intros H Hr.
  - eapply message_fed; eauto.
  - injection H as <- <- <-. discriminate.
  - injection H as <- <- <-. split; [reflexivity|]. split; [reflexivity|]. left. split; [reflexivity|]. unfold waits. cbn. lia.
Qed.

Lemma item_updates c i r c' o : feed_item c i = (r, c', o) -> updates o = 0%nat.
Proof.
  intros F. destruct r as [kd|]; [|exact (proj1 (item_fed _ _ _ _ _ F eq_refl))].
  destruct i as [t e m| |]; cbn [feed_item] in F.
  - unfold process_message in F. destruct (is_closed c); [discriminate|].
    match type of F with (match ?X with _ => _ end) = _ => destruct X as [[r0 c0] o0] eqn:X0 end.
    injection F as -> <- <-. assert (E : o0 = []); [|subst; reflexivity].
    destruct (m_service m =? 0).
    + destruct (cmsg_from_bytes (m_payload m)); [|injection X0 as <- <- <-; reflexivity|injection X0 as <- <- <-; reflexivity].
      eapply control_fails; [exact X0|discriminate].
    + destruct (c_established c); [|injection X0 as <- <- <-; reflexivity].
      unfold lift_mgr in X0. destruct (mgr_send (c_mgr c) m). discriminate.
  - injection F as <- <- <-. reflexivity.
  - discriminate.
Qed.

Lemma poll_waits c p c' o : ctx_poll c = (p, c', o) ->
  updates o = 0%nat /\ still c c' /\
  match p with PReady _ => waits c' = pred (waits c) | PPending => waits c = 0%nat /\ waits c' = 0%nat | _ => waits c' = waits c end.
Proof.
  unfold ctx_poll. destruct (is_closed c).
  { intros H. injection H as <- <- <-. split; [reflexivity|]. split; [split; reflexivity|reflexivity]. }
  destruct (c_messages c) as [|m q] eqn:Q.
  - destruct (mgr_poll (c_mgr c)) as [g mo] eqn:P. unfold mgr_poll in P. destruct (g_queue (c_mgr c)) as [|m0 q0] eqn:G.
    + destruct (poll_loop (length (g_order (c_mgr c))) (c_mgr c)) as [[r g1] o1] eqn:L. apply loop_queue in L.
      assert (Hg : g_queue g = []) by (destruct r; injection P as <- <-; cbn [set_task g_queue]; congruence).
      destruct (polled_msg mo); intros H; injection H as <- <- <-; (split; [apply updates_mgr|]); (split; [split; reflexivity|]);
        unfold waits; cbn [set_ctask set_mgr c_messages c_mgr]; rewrite Q, Hg, G; auto.
    + injection P as <- <-. cbn [polled_msg]. intros H. injection H as <- <- <-. split; [reflexivity|]. split; [split; reflexivity|].
      unfold waits. cbn [set_ctask set_mgr set_task set_queue c_messages c_mgr g_queue]. rewrite Q, G. reflexivity.
  - intros H. injection H as <- <- <-. split; [reflexivity|]. split; [split; reflexivity|].
    unfold waits. cbn [set_ctask set_messages c_messages c_mgr]. rewrite Q. reflexivity.
Qed.

(** The invariant of a running connection; [u] is the number of UPDATE messages so far. *)
Definition short (c : ctx) (u : nat) : Prop :=
  (waits c <= u + length (c_acks c))%nat /\ (length (c_acks c) <= 1)%nat /\ (forall x, In x (c_acks c) -> fst x = c_last_ping c).
(** The same after a message has been handled but nothing sent yet. *)
Definition nearly (c : ctx) (u : nat) : Prop :=
  (waits c <= S (u + length (c_acks c)))%nat /\ (length (c_acks c) <= 1)%nat /\ (forall x, In x (c_acks c) -> fst x = c_last_ping c).

Lemma fed_nearly c c' o u : short c u -> fed c c' o -> nearly c' u.
Proof.
  intros (A & B & C) (_ & P & [[E W]|[W [x E]]]).
  - split; [rewrite E; lia|]. split; [now rewrite E|]. rewrite E, P. exact C.
  - rewrite E in *. cbn [length] in *. split; [lia|]. split; [lia|]. intros y Hy. rewrite P. apply C. now right.
Qed.
Lemma poll_short c p c' o u : nearly c u -> ctx_poll c = (p, c', o) ->
  match p with PReady _ | PPending => short c' u | _ => True end.
Proof.
  intros (A & B & C) H. apply poll_waits in H as (_ & [E1 E2] & W).
  destruct p; try exact I; (split; [rewrite E1; lia|]); (split; [now rewrite E1|]); rewrite E1, E2; exact C.
Qed.
Lemma short_nearly c u : short c u -> nearly c u.
Proof. intros (A & B & C). split; [lia|auto]. Qed.

Lemma loop_short : forall items c p c' o u, nearly c u -> client_loop c items = (p, c', o) ->
  updates o = 0%nat /\ match p with PReady _ | PPending => short c' u | _ => True end.
Proof.
  induction items as [|i items IH]; intros c p c' o u N H; cbn [client_loop] in H.
  - destruct (ctx_poll c) as [[p1 c1] o1] eqn:P. assert (H' : (p1, c1, o1) = (p, c', o)) by (destruct p1; exact H).
    apply triple in H' as (-> & -> & ->). split; [exact (proj1 (poll_waits _ _ _ _ P))|]. exact (poll_short _ _ _ _ _ N P).
  - destruct (ctx_poll c) as [[p1 c1] o1] eqn:P. pose proof (proj1 (poll_waits _ _ _ _ P)) as U1.
    pose proof (poll_short _ _ _ _ _ N P) as S1.
    destruct p1; try (apply triple in H as (<- & <- & <-); split; [exact U1|exact S1]).
    destruct (feed_item c1 i) as [[r c2] o2] eqn:F. destruct r as [kd|].
    + apply triple in H as (<- & <- & <-). split; [|exact I]. rewrite updates_app, U1.
      exact (item_updates _ _ _ _ _ F).
    + destruct (client_loop c2 items) as [[p' c3] o3] eqn:L. apply triple in H as (<- & <- & <-).
      pose proof (item_fed _ _ _ _ _ F eq_refl) as Fd. pose proof (fed_nearly _ _ _ _ S1 Fd) as N2.
      destruct (IH _ _ _ _ _ N2 L) as [U3 S3]. split; [|exact S3]. rewrite !updates_app, U1, U3. destruct Fd as (U2 & _). now rewrite U2.
Qed.
Lemma client_short items c p c' o u : short c u -> client_poll c items = (p, c', o) ->
  match p with PReady _ | PPending => updates o = 0%nat /\ short c' u | _ => True end.
Proof.
  intros Sh H. destruct items as [|i items].
  - change (client_loop c [] = (p, c', o)) in H. destruct (loop_short _ _ _ _ _ _ (short_nearly _ _ Sh) H) as [A B].
    destruct p; auto.
  - unfold client_poll in H. destruct (feed_item c i) as [[r c1] o1] eqn:F. destruct r as [kd|].
    { apply triple in H as (<- & _). exact I. }
    destruct (client_loop c1 items) as [[p1 c2] o2] eqn:L. apply triple in H as (<- & <- & <-).
    pose proof (item_fed _ _ _ _ _ F eq_refl) as Fd. pose proof (fed_nearly _ _ _ _ Sh Fd) as N1.
    destruct (loop_short _ _ _ _ _ _ N1 L) as [A B]. destruct p1; auto; split; auto; rewrite updates_app, A; destruct Fd as (-> & _); reflexivity.
Qed.

Lemma update_short t c v0 v1 v2 c' o u : short c u -> check_for_updates t c v0 v1 v2 = (c', o) ->
  short c' (u + updates o) /\ c_acks c' = c_acks c.
Proof.
  intros (A & B & C) H. unfold check_for_updates in H. destruct (c_version c =? v_version v0).
  - injection H as <- <-. cbn [set_last_check c_acks]. change (updates []) with 0%nat. rewrite Nat.add_0_r. split; [|reflexivity].
    split; [exact A|]. split; [exact B|exact C].
  - unfold send_update, c_next_id in H. destruct (next_id (g_factory (c_mgr c))) as [id f].
    match type of H with (match send_control ?t0 ?d ?mm with _ => _ end) = _ => destruct (send_control t0 d mm) as [c1 o1] eqn:K end.
    injection H as <- <-. apply send_control_waits in K as (W & [S1 S2] & ->).
    cbn [set_last_check c_acks c_last_ping]. split; [|rewrite S1; reflexivity].
    assert (W2 : waits (set_last_check c1 t) = waits c1) by reflexivity.
    assert (W3 : waits (set_version (set_mgr c (set_factory (c_mgr c) f)) (v_version v2)) = waits c) by reflexivity.
    change (updates [XQueue t (mk_update id (table_of_services (v_visible v1)))]) with 1%nat.
    split; [rewrite W2; cbn [set_last_check c_acks]; rewrite S1; cbn [set_version set_mgr c_acks]; lia|].
    split; cbn [set_last_check c_acks c_last_ping]; rewrite S1; [exact B|]. rewrite S2. exact C.
Qed.

Lemma couple {A B} (a c : A) (b d : B) : (a, b) = (c, d) -> a = c /\ b = d.
Proof. now injection 1 as -> ->. Qed.
Lemma tick_short t c v0 v1 v2 c' o u : short c u -> time_event t c v0 v1 v2 = (None, c', o) -> short c' (u + updates o).
Proof.
  intros Sh H. unfold time_event in H.
  match type of H with (match ?X with _ => _ end) = _ => destruct X as [c2 o2] eqn:E end.
  apply triple in H as (T & <- & <-). destruct (ack_timeout t c2) eqn:At; [discriminate|]. clear T.
  destruct (c_established c); [|injection E as <- <-; change (updates []) with 0%nat; now rewrite Nat.add_0_r].
  destruct (Z.leb_spec PING_PERIOD (t - c_last_ping c)) as [Hp|Hp].
  - destruct (send_ping t c) as [c1 o1] eqn:P. unfold send_ping, c_next_id in P. destruct (next_id (g_factory (c_mgr c))) as [id f].
    unfold send_unconfirmed in P.
    match type of P with (match send_control ?t0 ?d ?mm with _ => _ end) = _ => destruct (send_control t0 d mm) as [c0 o0] eqn:K end.
    injection P as <- <-. apply send_control_waits in K as (W & [S1 S2] & ->).
    cbn [set_acks set_mgr c_acks c_last_ping cm_id mk_ping] in S1, S2.
    assert (W3 : waits (set_acks (set_mgr c (set_factory (c_mgr c) f)) (c_acks (set_mgr c (set_factory (c_mgr c) f)) ++ [(t, cm_id (mk_ping id))])) = waits c) by reflexivity.
    rewrite W3 in W. clear W3.
    assert (A2 : c_acks c2 = c_acks c ++ [(t, id)]).
    { destruct (UPDATE_CHECK_PERIOD <=? t - c_last_check (set_last_ping c0 t))%Z.
      - match type of E with (match ?X with _ => _ end) = _ => destruct X as [c3 o3] eqn:U end. apply couple in E as [<- <-].
        unfold check_for_updates in U. destruct (c_version (set_last_ping c0 t) =? v_version v0).
        + injection U as <- <-. exact S1.
        + unfold send_update, c_next_id in U. destruct (next_id (g_factory (c_mgr (set_last_ping c0 t)))) as [id2 f2].
          match type of U with (match send_control ?t0 ?d ?mm with _ => _ end) = _ => destruct (send_control t0 d mm) as [c4 o4] eqn:K end.
          injection U as <- <-. apply send_control_waits in K as (_ & [S3 _] & _). cbn [set_last_check c_acks]. rewrite S3. exact S1.
      - injection E as <- <-. exact S1. }
    destruct Sh as (A & B & C). destruct (c_acks c) as [|[t0 i0] rest] eqn:Q.
    + assert (Sh1 : short (set_last_ping c0 t) (u + updates [XQueue t (mk_ping id)])).
      { change (updates [XQueue t (mk_ping id)]) with 0%nat. rewrite Nat.add_0_r.
        split; [change (waits (set_last_ping c0 t)) with (waits c0); cbn [set_last_ping c_acks]; rewrite S1; cbn [app length] in *; lia|].
        cbn [set_last_ping c_acks c_last_ping]. rewrite S1. cbn [app length]. split; [lia|]. intros x [<-|[]]. reflexivity. }
      destruct (UPDATE_CHECK_PERIOD <=? t - c_last_check (set_last_ping c0 t))%Z.
      * match type of E with (match ?X with _ => _ end) = _ => destruct X as [c3 o3] eqn:U end. apply couple in E as [<- <-].
        rewrite updates_app, Nat.add_assoc. exact (proj1 (update_short _ _ _ _ _ _ _ _ Sh1 U)).
      * apply couple in E as [<- <-]. rewrite app_nil_r. exact Sh1.
    + exfalso. unfold ack_timeout in At. rewrite A2 in At. cbn [app] in At.
      pose proof (C (t0, i0) (or_introl eq_refl)) as Ht. cbn [fst] in Ht. unfold ACK_TIMEOUT, PING_PERIOD, SEC in *. lia.
  - destruct (UPDATE_CHECK_PERIOD <=? t - c_last_check c)%Z.
    + match type of E with (match ?X with _ => _ end) = _ => destruct X as [c3 o3] eqn:U end. apply couple in E as [<- <-].
      exact (proj1 (update_short _ _ _ _ _ _ _ _ Sh U)).
    + apply couple in E as [<- <-]. change (updates ([] ++ [])) with 0%nat. now rewrite Nat.add_0_r.
Qed.

Lemma step_short k e k' o u : k_result k = None -> short (k_ctx k) u -> conn_step k e = (k', o) -> k_result k' = None ->
  short (k_ctx k') (u + updates o).
Proof.
  intros R Sh H R'. unfold conn_step in H. rewrite R in H. destruct e as [items|t v0 v1 v2| |sid te].
  - destruct (client_poll (k_ctx k) items) as [[p c1] o1] eqn:P. pose proof (client_short _ _ _ _ _ _ Sh P) as X.
    destruct p; injection H as <- <-; cbn [k_result k_ctx] in *; try discriminate R'.
    + destruct X as [U X]. rewrite updates_app, U. change (updates [XSent m]) with 0%nat. now rewrite !Nat.add_0_r.
    + destruct X as [U X]. now rewrite U, Nat.add_0_r.
  - destruct (is_closed (k_ctx k)); [injection H as <- <-; discriminate R'|].
    destruct (time_event t (k_ctx k) v0 v1 v2) as [[r c1] o1] eqn:T. injection H as <- <-. cbn [k_result k_ctx] in *.
    destruct r; [discriminate R'|]. change (XTick t v0 v1 v2 :: o1) with ([XTick t v0 v1 v2] ++ o1). rewrite updates_app.
    exact (tick_short _ _ _ _ _ _ _ _ Sh T).
  - injection H as <- <-. discriminate R'.
  - unfold lift_mgr in H. destruct (mgr_step (c_mgr (k_ctx k)) (MTransport sid te)) as [g mo] eqn:G. injection H as <- <-.
    rewrite updates_mgr, Nat.add_0_r. cbn [k_ctx]. destruct Sh as (A & B & C). split; [|split; [exact B|exact C]].
    assert (Q : g_queue g = g_queue (c_mgr (k_ctx k))).
    { cbn [mgr_step] in G. destruct (find_sess (c_mgr (k_ctx k)) sid) as [s|]; [|now injection G as <- <-].
      destruct (sess_step s (sev_of te)) as [s' so]. injection G as <- <-. reflexivity. }
    unfold waits in *. cbn [set_mgr c_messages c_mgr c_acks]. rewrite Q. exact A.
Qed.

Lemma run_short : forall es k k' o u, k_result k = None -> short (k_ctx k) u -> conn_run k es = (k', o) -> k_result k' = None ->
  short (k_ctx k') (u + updates o).
Proof.
  induction es as [|e es IH]; intros k k' o u R Sh H R'; cbn [conn_run] in H.
  - injection H as <- <-. change (updates []) with 0%nat. now rewrite Nat.add_0_r.
  - destruct (conn_step k e) as [k1 o1] eqn:E. destruct (conn_run k1 es) as [k2 o2] eqn:F. injection H as <- <-.
    rewrite updates_app, Nat.add_assoc. destruct (k_result k1) as [x|] eqn:R1.
    + exfalso. assert (X : forall l k0, k_result k0 <> None -> k_result (fst (conn_run k0 l)) <> None).
      { induction l as [|y l IHl]; intros k0 Hk; [exact Hk|]. cbn [conn_run].
        assert (Y : conn_step k0 y = (k0, [])) by (unfold conn_step; destruct (k_result k0); [reflexivity|congruence]).
        rewrite Y. specialize (IHl k0 Hk). now destruct (conn_run k0 l). }
      apply (X es k1); [congruence|]. now rewrite F.
    + exact (IH _ _ _ _ R1 (step_short _ _ _ _ _ R Sh E R1) F R').
Qed.

Lemma backlog_bound t i v1 v2 es k h : connection t i v1 v2 es = (k, h) -> k_result k = None ->
  (backlog k <= 1 + updates h)%nat /\ (length (c_acks (k_ctx k)) <= 1)%nat.
Proof.
  intros H R. unfold connection in H. destruct (conn_new t i v1 v2) as [k0 o0] eqn:C.
  destruct (conn_run k0 es) as [k' o'] eqn:E. injection H as <- <-.
  assert (Sh : k_result k0 = None /\ short (k_ctx k0) (updates o0)).
  { unfold conn_new in C. destruct (ctx_new t i v1 v2) as [c o] eqn:X. injection C as <- <-. split; [reflexivity|]. cbn [k_ctx].
    unfold ctx_new, c_next_id in X. cbn [c_mgr mgr_new g_factory] in X. destruct (next_id factory_new) as [id f].
    match type of X with (match ?M with _ => _ end) = _ => destruct M as [m| |] eqn:Mk end;
      try (injection X as <- <-; split; [apply le_n|]; split; [apply Nat.le_0_l|]; intros ? []).
    unfold send_unconfirmed in X. assert (Ty : cm_type m = 2) by (unfold mk_register in Mk; cbn in Mk; injection Mk as <-; reflexivity).
    apply send_control_waits in X as (W & [S1 S2] & ->).
    assert (U : updates [XQueue t m] = 0%nat) by (unfold updates; cbn [filter is_update]; rewrite Ty; reflexivity). rewrite U.
    split; [rewrite W, S1; cbn; lia|]. split; [rewrite S1; cbn; lia|]. rewrite S1, S2. intros x [<-|[]]. reflexivity. }
  destruct Sh as [R0 Sh]. pose proof (run_short _ _ _ _ _ R0 Sh E R) as (A & B & _). rewrite updates_app.
  change (backlog k') with (waits (k_ctx k')). split; [lia|exact B].
Qed.

Lemma tick_updates t c v0 v1 v2 r c' o : time_event t c v0 v1 v2 = (r, c', o) -> (updates o <= 1)%nat.
Proof.
  intros H. unfold time_event in H.
  match type of H with (match ?X with _ => _ end) = _ => destruct X as [c2 o2] eqn:E end.
  apply triple in H as (_ & <- & <-).
  destruct (c_established c); [|apply couple in E as [<- <-]; apply Nat.le_0_l].
  match type of E with (match ?X with _ => _ end) = _ => destruct X as [c1 o1] eqn:P end.
  match type of E with (match ?X with _ => _ end) = _ => destruct X as [c3 o3] eqn:U end.
  apply couple in E as [<- <-]. rewrite updates_app.
  assert (A : updates o1 = 0%nat).
  { destruct (PING_PERIOD <=? t - c_last_ping c)%Z; [|apply couple in P as [<- <-]; reflexivity].
    unfold send_ping, c_next_id in P. destruct (next_id (g_factory (c_mgr c))) as [id f]. unfold send_unconfirmed in P.
    match type of P with (match send_control ?t0 ?d ?mm with _ => _ end) = _ => destruct (send_control t0 d mm) as [c0 o0] eqn:K end.
    apply couple in P as [<- <-]. apply send_control_waits in K as (_ & _ & ->). reflexivity. }
  rewrite A. destruct (UPDATE_CHECK_PERIOD <=? t - c_last_check c1)%Z; [|apply couple in U as [<- <-]; apply Nat.le_0_l].
  unfold check_for_updates in U. destruct (c_version c1 =? v_version v0); [apply couple in U as [<- <-]; apply Nat.le_0_l|].
  unfold send_update, c_next_id in U. destruct (next_id (g_factory (c_mgr c1))) as [id f].
  match type of U with (match send_control ?t0 ?d ?mm with _ => _ end) = _ => destruct (send_control t0 d mm) as [c0 o0] eqn:K end.
  apply couple in U as [<- <-]. apply send_control_waits in K as (_ & _ & ->). apply le_n.
Qed.
Lemma loop_updates : forall items c p c' o, client_loop c items = (p, c', o) -> updates o = 0%nat.
Proof.
  induction items as [|i items IH]; intros c p c' o H; cbn [client_loop] in H.
  - destruct (ctx_poll c) as [[p1 c1] o1] eqn:P. assert (H' : (p1, c1, o1) = (p, c', o)) by (destruct p1; exact H).
    apply triple in H' as (-> & -> & ->). exact (proj1 (poll_waits _ _ _ _ P)).
  - destruct (ctx_poll c) as [[p1 c1] o1] eqn:P. pose proof (proj1 (poll_waits _ _ _ _ P)) as U1.
    destruct p1; try (apply triple in H as (<- & <- & <-); exact U1).
    destruct (feed_item c1 i) as [[r c2] o2] eqn:F. pose proof (item_updates _ _ _ _ _ F) as U2. destruct r as [kd|].
    + apply triple in H as (<- & <- & <-). now rewrite updates_app, U1, U2.
    + destruct (client_loop c2 items) as [[p' c3] o3] eqn:L. apply triple in H as (<- & <- & <-).
      now rewrite !updates_app, U1, U2, (IH _ _ _ _ L).
Qed.
Lemma poll_updates items c p c' o : client_poll c items = (p, c', o) -> updates o = 0%nat.
Proof.
  intros H. destruct items as [|i items]; [exact (loop_updates _ _ _ _ _ H)|]. unfold client_poll in H.
  destruct (feed_item c i) as [[r c1] o1] eqn:F. pose proof (item_updates _ _ _ _ _ F) as U. destruct r as [kd|].
  { now apply triple in H as (<- & <- & <-). }
  destruct (client_loop c1 items) as [[p1 c2] o2] eqn:L. apply triple in H as (<- & <- & <-).
  now rewrite updates_app, U, (loop_updates _ _ _ _ _ L).
Qed.
Lemma step_updates k e k' o : conn_step k e = (k', o) -> (updates o <= ticks [e])%nat.
Proof.
  unfold conn_step. destruct (k_result k); [intros H; apply couple in H as [<- <-]; apply Nat.le_0_l|].
  destruct e as [items|t v0 v1 v2| |sid te].
  - destruct (client_poll (k_ctx k) items) as [[p c1] o1] eqn:P. pose proof (poll_updates _ _ _ _ _ P) as U.
    destruct p; intros H; apply couple in H as [<- <-]; rewrite ?updates_app, U; apply le_n.
  - destruct (is_closed (k_ctx k)); [intros H; apply couple in H as [<- <-]; apply le_S, le_n|].
    destruct (time_event t (k_ctx k) v0 v1 v2) as [[r c1] o1] eqn:T. intros H. apply couple in H as [<- <-].
    exact (tick_updates _ _ _ _ _ _ _ _ T).
  - intros H. apply couple in H as [<- <-]. apply le_n.
  - unfold lift_mgr. destruct (mgr_step (c_mgr (k_ctx k)) (MTransport sid te)) as [g mo]. intros H. apply couple in H as [<- <-].
    rewrite updates_mgr. apply le_n.
Qed.
Lemma run_updates : forall es k k' o, conn_run k es = (k', o) -> (updates o <= ticks es)%nat.
Proof.
  induction es as [|e es IH]; intros k k' o H; cbn [conn_run] in H; [apply couple in H as [<- <-]; apply le_n|].
  destruct (conn_step k e) as [k1 o1] eqn:E. destruct (conn_run k1 es) as [k2 o2] eqn:F. apply couple in H as [<- <-].
  rewrite updates_app. change (e :: es) with ([e] ++ es). unfold ticks. rewrite filter_app, app_length.
  pose proof (step_updates _ _ _ _ E) as A. pose proof (IH _ _ _ F) as B. unfold ticks in *. lia.
Qed.
Lemma updates_ticks t i v1 v2 es k h : connection t i v1 v2 es = (k, h) -> (updates h <= ticks es)%nat.
Proof.
  intros H. unfold connection in H. destruct (conn_new t i v1 v2) as [k0 o0] eqn:C.
  destruct (conn_run k0 es) as [k' o'] eqn:E. apply couple in H as [<- <-]. rewrite updates_app.
  pose proof (run_updates _ _ _ _ E). enough (updates o0 = 0%nat) by lia.
  unfold conn_new in C. destruct (ctx_new t i v1 v2) as [c o] eqn:X. apply couple in C as [_ <-].
  unfold ctx_new, c_next_id in X. cbn [c_mgr mgr_new g_factory] in X. destruct (next_id factory_new) as [id f].
  match type of X with (match ?M with _ => _ end) = _ => destruct M as [m| |] eqn:Mk end; try (now apply couple in X as [_ <-]).
  unfold send_unconfirmed in X. assert (Ty : cm_type m = 2) by (unfold mk_register in Mk; cbn in Mk; injection Mk as <-; reflexivity).
  apply send_control_waits in X as (_ & _ & ->). unfold updates; cbn [filter is_update]; rewrite Ty; reflexivity.
Qed.
