(** Whole connections on the wire. *)
From Coq Require Import NArith ZArith List Bool Lia ZifyBool ZifyNat ZifyN.
From Verif.Model Require Import Bytes Frame Service Control Alist Session Manager Client Wire.
From Verif.Spec Require Import FrameSpec SessionSpec ManagerSpec ClientSpec WireSpec.
From Verif.Proofs Require Import BytesFacts FrameProofs FramePropsPf ClientInv ClientRun ClientPropsPf ClientPropsPf2 WirePf.
Import ListNotations.
Local Open Scope N_scope.

(** ** Fuel *)
Lemma loop_total clock : forall fuel n c w sock,
  (is_closed c = true /\ (1 <= fuel)%nat) \/ (length (rem w sock) + 2 <= fuel)%nat ->
  wire_loop fuel clock n c w sock <> None.
Proof.
  induction fuel as [|f IH]; intros n c w sock Hf; [lia|].
  cbn [wire_loop]. destruct (ctx_poll c) as [[p c1] o1] eqn:P.
  destruct p; try discriminate. destruct (poll_pending _ _ _ P) as [Nc Nc1].
  destruct Hf as [[Hf _]|Hf]; [congruence|].
  destruct (framed_next w sock) as [[x w1] sock1] eqn:F. pose proof (next_step _ _ _ _ _ F) as Hs.
  destruct x; cbn [item_of]; try discriminate; cbn [feed_item]; try discriminate.
  - destruct (process_message _ _ c1 m) as [[r c2] o2]. destruct r; [discriminate|].
    destruct Hs as [Hd _]. apply decode_consumes in Hd.
    specialize (IH (S n) c2 w1 sock1). destruct (wire_loop f clock (S n) c2 w1 sock1) as [[[[[? ?] ?] ?] ?]|]; [discriminate|].
    exfalso. apply IH; [|reflexivity]. right. lia.
  - specialize (IH (S n) (set_closed c1) w1 sock1). destruct (wire_loop f clock (S n) (set_closed c1) w1 sock1) as [[[[[? ?] ?] ?] ?]|]; [discriminate|].
    exfalso. apply IH; [|reflexivity]. left. split; [reflexivity|lia].
Qed.

Lemma poll_total clock c w sock : wire_poll clock c w sock <> None.
Proof.
  unfold wire_poll. destruct (framed_next w sock) as [[x w1] sock1] eqn:F. pose proof (next_step _ _ _ _ _ F) as Hs.
  assert (L : (length (rem w1 sock1) <= length (rem w sock))%nat).
  { destruct x; cbn [next_ok] in Hs.
    - destruct Hs as [-> _]. lia.
    - destruct Hs as [Hd _]. apply decode_consumes in Hd. lia.
    - destruct Hs as [-> _]. lia.
    - rewrite Hs. lia. }
  set (fuel := (length (f_buf w) + length (sock_bytes sock) + 3)%nat).
  assert (Hf : (length (rem w1 sock1) + 2 <= fuel)%nat).
  { subst fuel. unfold rem in L at 2. rewrite app_length in L. lia. }
  clearbody fuel.
  destruct (item_of clock 0 x) as [i|].
  - destruct (feed_item c i) as [[r c1] o1]. destruct r; [discriminate|].
    pose proof (loop_total clock fuel 1 c1 w1 sock1 (or_intror Hf)) as T.
    destruct (wire_loop fuel clock 1 c1 w1 sock1) as [[[[[? ?] ?] ?] ?]|]; [discriminate|congruence].
  - apply loop_total. right. exact Hf.
Qed.

Lemma step_total q e : wire_step q e <> None.
Proof.
  destruct e as [r|clock| |n|t v0 v1 v2| |sid te]; cbn [wire_step]; try discriminate.
  - destruct (k_result (q_conn q)); [discriminate|]. destruct (q_item q); [discriminate|].
    pose proof (poll_total clock (k_ctx (q_conn q)) (q_in q) (q_sock q)) as T.
    destruct (wire_poll clock (k_ctx (q_conn q)) (q_in q) (q_sock q)) as [[[[[p c] o] w] sock]|]; [|congruence].
    destruct p; discriminate.
  - destruct (q_item q); [|discriminate]. destruct (_ <? _); discriminate.
  - destruct (conn_step _ _); discriminate.
  - destruct (conn_step _ _); discriminate.
  - destruct (conn_step _ _); discriminate.
Qed.

Lemma run_total : forall es q, wire_run q es <> None.
Proof.
  induction es as [|e es IH]; intros q; [discriminate|]. cbn [wire_run].
  pose proof (step_total q e) as S. destruct (wire_step q e) as [[q1 o1]|]; [|congruence].
  pose proof (IH q1) as R. destruct (wire_run q1 es) as [[q2 o2]|]; [discriminate|congruence].
Qed.

Lemma connection_total t i v1 v2 es : wire_connection t i v1 v2 es <> None.
Proof.
  unfold wire_connection. destruct (conn_new t i v1 v2) as [k o]. 
  match goal with |- match wire_run ?q es with _ => _ end <> _ => pose proof (run_total es q) as R; destruct (wire_run q es) as [[q' o']|] end;
    [discriminate|congruence].
Qed.

(** ** Histories event by event *)
Lemma conn_run_snoc k es e :
  conn_run k (es ++ [e]) = let '(k1, o1) := conn_run k es in let '(k2, o2) := conn_step k1 e in (k2, o1 ++ o2).
Proof.
  revert k. induction es as [|x es IH]; intros k; cbn [conn_run app].
  - destruct (conn_step k e) as [k2 o2]. now rewrite app_nil_r.
  - destruct (conn_step k x) as [k1 o1]. rewrite IH. destruct (conn_run k1 es) as [k2 o2].
    destruct (conn_step k2 e) as [k3 o3]. now rewrite app_assoc.
Qed.

Lemma connection_snoc t i v1 v2 es e k h k' o :
  connection t i v1 v2 es = (k, h) -> conn_step k e = (k', o) -> connection t i v1 v2 (es ++ [e]) = (k', h ++ o).
Proof.
  unfold connection. destruct (conn_new t i v1 v2) as [k0 o0]. rewrite conn_run_snoc.
  destruct (conn_run k0 es) as [k1 o1]. intros E Hs. injection E as <- <-. rewrite Hs. now rewrite app_assoc.
Qed.

Lemma wire_run_snoc : forall es q e,
  wire_run q (es ++ [e]) =
  match wire_run q es with
  | None => None
  | Some (q1, o1) => match wire_step q1 e with None => None | Some (q2, o2) => Some (q2, o1 ++ o2) end
  end.
Proof.
  induction es as [|x es IH]; intros q e; cbn [wire_run app].
  - destruct (wire_step q e) as [[q2 o2]|]; [|reflexivity]. now rewrite app_nil_r.
  - destruct (wire_step q x) as [[q1 o1]|]; [|reflexivity]. rewrite IH. destruct (wire_run q1 es) as [[q2 o2]|]; [|reflexivity].
    destruct (wire_step q2 e) as [[q3 o3]|]; [|reflexivity]. now rewrite app_assoc.
Qed.

(** ** Nothing is sent except by polls *)
Lemma sent_none_mgr o : sent (map XMgr o) = [].
Proof. exact (sent_mgr [] o). Qed.

Lemma control_sent t e c m r c' o : process_control t e c m = (r, c', o) -> sent o = [].
Proof.
  intros H.
  assert (L : forall r0, sent (snd (lift_mgr c r0)) = []).
  { intros [g mo]. apply sent_none_mgr. }
  unfold process_control in H.
  destruct (message_type (cm_type m)) eqn:T, (cm_body m) eqn:B;
    repeat match type of H with context [if c_established c then _ else _] => destruct (c_established c) end;
    try (injection H as <- <- <-; reflexivity);
    try (injection H as <- <- <-; apply L).
  all: try (destruct (process_ack e c (cm_id m) err) as [rr cc]; injection H as <- <- <-; reflexivity).
  all: try (destruct (c_next_id c) as [idd cc]; injection H as <- <- <-; reflexivity).
Qed.

Lemma feed_sent c i r c' o : feed_item c i = (r, c', o) -> sent o = [].
Proof.
  intros H. destruct i as [t e m| |]; cbn [feed_item] in H; try (injection H as <- <- <-; reflexivity).
  unfold process_message in H. destruct (is_closed c); [injection H as <- <- <-; reflexivity|].
  match type of H with (match ?X with _ => _ end) = _ => destruct X as [[r0 c0] o0] eqn:X0 end.
  injection H as <- <- <-. cbn [sent flat_map app]. change (sent o0 = []).
  destruct (m_service m =? 0).
  - destruct (cmsg_from_bytes (m_payload m)).
    + eapply control_sent; eauto.
    + injection X0 as <- <- <-. reflexivity.
    + injection X0 as <- <- <-. reflexivity.
  - destruct (c_established c); [|injection X0 as <- <- <-; reflexivity].
    unfold lift_mgr in X0. destruct (mgr_send (c_mgr c) m) as [g mo]. injection X0 as <- <- <-. apply sent_none_mgr.
Qed.

Lemma poll_sent c p c' o : ctx_poll c = (p, c', o) -> sent o = [].
Proof.
  unfold ctx_poll. destruct (is_closed c); [intros E; injection E as <- <- <-; reflexivity|].
  destruct (c_messages c); [|intros E; injection E as <- <- <-; reflexivity].
  destruct (mgr_poll (c_mgr c)) as [g mo]. destruct (polled_msg mo); intros E; injection E as <- <- <-; apply sent_none_mgr.
Qed.

Lemma loop_sent : forall items c p c' o, client_loop c items = (p, c', o) -> sent o = [].
Proof.
  induction items as [|i items IH]; intros c p c' o; cbn [client_loop]; destruct (ctx_poll c) as [[p1 c1] o1] eqn:P;
    pose proof (poll_sent _ _ _ _ P) as S1; destruct p1; try (intros E; injection E as <- <- <-; exact S1).
  destruct (feed_item c1 i) as [[r c2] o2] eqn:F. pose proof (feed_sent _ _ _ _ _ F) as S2. destruct r.
  - intros E; injection E as <- <- <-. now rewrite sent_app, S1, S2.
  - destruct (client_loop c2 items) as [[p3 c3] o3] eqn:L. intros E; injection E as <- <- <-.
    rewrite !sent_app, S1, S2. exact (IH _ _ _ _ L).
Qed.

Lemma client_poll_sent items c p c' o : client_poll c items = (p, c', o) -> sent o = [].
Proof.
  destruct items as [|i items]; cbn [client_poll]; [apply loop_sent|].
  destruct (feed_item c i) as [[r c2] o2] eqn:F. pose proof (feed_sent _ _ _ _ _ F) as S2. destruct r.
  - intros E; injection E as <- <- <-. exact S2.
  - destruct (client_loop c2 items) as [[p3 c3] o3] eqn:L. intros E; injection E as <- <- <-.
    rewrite sent_app, S2. eapply loop_sent; eauto.
Qed.

Lemma tick_quiet t c v0 v1 v2 r c' o : time_event t c v0 v1 v2 = (r, c', o) -> sent o = [] /\ received o = [].
Proof.
  unfold time_event, check_for_updates, send_update, send_ping, send_unconfirmed, send_control. intros H.
  destruct (c_established c); [|injection H as <- <- <-; split; reflexivity].
  destruct (_ <=? _)%Z; cbn zeta in H;
  repeat match type of H with context [c_next_id ?x] => destruct (c_next_id x) as [? ?] end;
  repeat match type of H with context [(_ <=? _)%Z] => destruct (_ <=? _)%Z end;
  repeat match type of H with context [_ =? _] => destruct (_ =? _) end;
  repeat match type of H with context [c_next_id ?x] => destruct (c_next_id x) as [? ?] end;
  injection H as <- <- <-; split; reflexivity.
Qed.

(** ** The run *)
Definition pending_bytes (q : wconn) : bytes :=
  q_buf q ++ match q_item q with Some m => amsg_encode m | None => [] end.

Record wire_ok (t : Z) (i : identity) (v1 v2 : view) (es : list wev) (q : wconn) (h : list cobs) : Prop := {
  wk_conn : exists kes, connection t i v1 v2 kes = (q_conn q, h);
  wk_in : parsed (arrived es) (map snd (received h)) (rem (q_in q) (q_sock q));
  wk_inv : k_result (q_conn q) = None -> winv (q_in q);
  wk_out : q_wire q ++ pending_bytes q = concat (map amsg_encode (sent h))
}.

Lemma arrived_app es e : arrived (es ++ [e]) = arrived es ++ arrived [e].
Proof. unfold arrived. now rewrite flat_map_app. Qed.

Lemma enc_snoc h m : concat (map amsg_encode (sent (h ++ [XSent m]))) = concat (map amsg_encode (sent h)) ++ amsg_encode m.
Proof. rewrite sent_app, map_app, concat_app. cbn. now rewrite app_nil_r. Qed.

Lemma conn_event_ok t i v1 v2 es q h we ke k o :
  wire_ok t i v1 v2 es q h -> arrived [we] = [] -> conn_step (q_conn q) ke = (k, o) ->
  sent o = [] -> received o = [] -> (k_result k = None -> k_result (q_conn q) = None) ->
  wire_ok t i v1 v2 (es ++ [we]) (with_conn q k) (h ++ o).
Proof.
  intros [[kes A] B C D] Ea Hk Hs Hr Hres. split.
  - exists (kes ++ [ke]). cbn [with_conn q_conn]. eapply connection_snoc; eauto.
  - rewrite arrived_app, Ea, app_nil_r. cbn [with_conn q_in q_sock]. rewrite received_app, Hr, app_nil_r. exact B.
  - cbn [with_conn q_conn q_in]. auto.
  - unfold pending_bytes in *. cbn [with_conn q_wire q_buf q_item]. rewrite sent_app, Hs, app_nil_r. exact D.
Qed.

Lemma step_ok t i v1 v2 es q h e q' o :
  wire_ok t i v1 v2 es q h -> wire_step q e = Some (q', o) -> wire_ok t i v1 v2 (es ++ [e]) q' (h ++ o).
Proof.
  intros H Hs. pose proof H as [[kes A] B C D].
  destruct e as [r|clock| |n|tt v0 w1 w2| |sid te]; cbn [wire_step] in Hs.
  - injection Hs as <- <-. rewrite app_nil_r. split.
    + exists kes. exact A.
    + rewrite arrived_app. cbn [q_in q_sock]. unfold rem, sock_bytes. rewrite flat_map_app, app_assoc.
      change (flat_map _ [r]) with (sock_bytes [r]).
      replace (arrived [WArrive r]) with (sock_bytes [r]) by (destruct r; reflexivity).
      apply parsed_app. exact B.
    + exact C.
    + exact D.
  - destruct (k_result (q_conn q)) as [res|] eqn:Kr.
    { injection Hs as <- <-. rewrite app_nil_r. split; rewrite ?arrived_app; cbn [arrived flat_map]; rewrite ?app_nil_r; eauto. rewrite Kr; discriminate. }
    destruct (q_item q) as [it|] eqn:Qi.
    { injection Hs as <- <-. rewrite app_nil_r. split; rewrite ?arrived_app; cbn [arrived flat_map]; rewrite ?app_nil_r; eauto. }
    destruct (wire_poll clock (k_ctx (q_conn q)) (q_in q) (q_sock q)) as [[[[[p c] o1] w] sock]|] eqn:P; [|discriminate].
    assert (Nc : is_closed (k_ctx (q_conn q)) = false).
    { destruct (running_full _ _ _ _ _ _ _ A Kr) as ((I & _ & _) & _). apply open_not_closed. exact (v_open _ _ _ _ _ I). }
    destruct (poll_rel _ _ _ _ _ _ _ _ _ P Nc (C eq_refl)) as (items & P1 & P2 & P3 & P4 & P5).
    pose proof (client_poll_sent _ _ _ _ _ P1) as S1.
    assert (Bin : parsed (arrived (es ++ [WNext clock])) (map snd (received (h ++ o1))) (rem w sock)).
    { rewrite arrived_app. cbn [arrived flat_map]. rewrite app_nil_r, received_app, map_app, P3. eapply parsed_trans; eauto. }
    assert (Dw : q_wire q ++ q_buf q = concat (map amsg_encode (sent (h ++ o1)))).
    { rewrite sent_app, S1, app_nil_r. unfold pending_bytes in D. rewrite Qi, app_nil_r in D. exact D. }
    assert (Kstep : conn_step (q_conn q) (KPoll items) =
      match p with
      | PReady m => ({| k_ctx := c; k_result := None |}, o1 ++ [XSent m])
      | PError kind => ({| k_ctx := c; k_result := Some (Failed kind) |}, o1)
      | PEnd => ({| k_ctx := c; k_result := Some (final_result c) |}, o1)
      | PPending => ({| k_ctx := c; k_result := None |}, o1)
      end).
    { unfold conn_step. rewrite Kr, P1. destruct p; reflexivity. }
    destruct p; injection Hs as <- <-; split; cbn [q_conn q_in q_sock q_item q_buf q_wire k_result pending_bytes];
      try (eexists; eapply connection_snoc; [exact A|exact Kstep]); try exact Bin; try discriminate;
      try (intros _; apply P4; exact Logic.I); try (unfold pending_bytes; cbn [q_buf q_item]; rewrite app_nil_r; exact Dw).
    + rewrite app_assoc, received_app. cbn [received flat_map]. rewrite app_nil_r. exact Bin.
    + unfold pending_bytes; cbn [q_buf q_item]. rewrite (app_assoc h), enc_snoc, app_assoc, Dw. reflexivity.
  - assert (Ea : arrived (es ++ [WGive]) = arrived es) by (rewrite arrived_app; cbn; now rewrite app_nil_r).
    destruct (q_item q) as [m|] eqn:Qi.
    + destruct (nlen (q_buf q) <? BACKPRESSURE_BOUNDARY); injection Hs as <- <-; rewrite app_nil_r; split; rewrite ?Ea; eauto.
      unfold pending_bytes in *. cbn [q_wire q_buf q_item]. rewrite Qi in D. rewrite app_nil_r. exact D.
    + injection Hs as <- <-. rewrite app_nil_r. split; rewrite ?Ea; eauto.
  - injection Hs as <- <-. rewrite app_nil_r. split; rewrite ?arrived_app; cbn [arrived flat_map]; rewrite ?app_nil_r; eauto.
    unfold pending_bytes in *. cbn [q_wire q_buf q_item]. rewrite <- D, <- app_assoc. f_equal. rewrite app_assoc. f_equal. apply firstn_skipn.
  - destruct (conn_step (q_conn q) (KTick tt v0 w1 w2)) as [k o1] eqn:K. injection Hs as <- <-.
    eapply conn_event_ok; eauto.
    + unfold conn_step in K. destruct (k_result (q_conn q)); [injection K as <- <-; reflexivity|].
      destruct (is_closed _); [injection K as <- <-; reflexivity|].
      destruct (time_event tt (k_ctx (q_conn q)) v0 w1 w2) as [[r c] oo] eqn:T. injection K as <- <-.
      cbn [sent flat_map app]. exact (proj1 (tick_quiet _ _ _ _ _ _ _ _ T)).
    + unfold conn_step in K. destruct (k_result (q_conn q)); [injection K as <- <-; reflexivity|].
      destruct (is_closed _); [injection K as <- <-; reflexivity|].
      destruct (time_event tt (k_ctx (q_conn q)) v0 w1 w2) as [[r c] oo] eqn:T. injection K as <- <-.
      cbn [received flat_map app]. exact (proj2 (tick_quiet _ _ _ _ _ _ _ _ T)).
    + unfold conn_step in K. destruct (k_result (q_conn q)) eqn:Kr; [injection K as <- <-; congruence|reflexivity].
  - destruct (conn_step (q_conn q) KSinkFailed) as [k o1] eqn:K. injection Hs as <- <-.
    assert (o1 = [] /\ (k_result k = None -> k_result (q_conn q) = None)) as [-> Z].
    { unfold conn_step in K. destruct (k_result (q_conn q)) eqn:Kr; injection K as <- <-; split; auto; congruence. }
    eapply conn_event_ok; eauto; reflexivity.
  - destruct (conn_step (q_conn q) (KTransport sid te)) as [k o1] eqn:K. injection Hs as <- <-.
    assert (K' := K). unfold conn_step in K'. destruct (k_result (q_conn q)) eqn:Kr.
    + injection K' as <- <-.
      refine (conn_event_ok t i v1 v2 es q h (WTransport sid te) (KTransport sid te) (q_conn q) [] H _ K _ _ _);
        [reflexivity|reflexivity|reflexivity|auto].
    + unfold lift_mgr in K'. destruct (mgr_step _ _) as [g mo] eqn:G. injection K' as <- <-.
      refine (conn_event_ok t i v1 v2 es q h (WTransport sid te) (KTransport sid te) _ _ H _ K _ _ _).
      * reflexivity.
      * apply sent_none_mgr.
      * exact (received_mgr [] mo).
      * auto.
Qed.

Lemma wire_connection_ok t i v1 v2 es q h : wire_connection t i v1 v2 es = Some (q, h) -> wire_ok t i v1 v2 es q h.
Proof.
  revert q h. induction es as [|e es IH] using rev_ind; intros q h.
  - unfold wire_connection. destruct (conn_new t i v1 v2) as [k o] eqn:N. cbn [wire_run]. intros E. injection E as <- <-.
    rewrite app_nil_r.
    assert (So : sent o = [] /\ received o = []).
    { unfold conn_new, ctx_new in N.
      destruct (c_next_id _) as [id c1]. destruct (mk_register _ _ _ _ _ _ _ _); injection N as <- <-; split; reflexivity. }
    destruct So as [So Ro]. split; cbn [q_conn q_in q_sock q_wire].
    + exists []. unfold connection. rewrite N. cbn [conn_run]. now rewrite app_nil_r.
    + rewrite Ro. constructor.
    + intros _. right. right. reflexivity.
    + unfold pending_bytes. cbn [q_buf q_item]. now rewrite So.
  - unfold wire_connection in *. destruct (conn_new t i v1 v2) as [k o]. rewrite wire_run_snoc.
    destruct (wire_run _ es) as [[q1 o1]|]; [|discriminate].
    destruct (wire_step q1 e) as [[q2 o2]|] eqn:S; [|discriminate].
    intros E. injection E as <- <-. rewrite app_assoc. eapply step_ok; [|exact S]. apply IH. reflexivity.
Qed.
