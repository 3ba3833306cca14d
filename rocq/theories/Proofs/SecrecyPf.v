(** The identity of the client is in the REGISTER message only. *)
From Coq Require Import NArith ZArith List Bool.
From Verif.Model Require Import Bytes Frame Service Control Alist Session Manager Client.
From Verif.Spec Require Import SecrecySpec.
Import ListNotations.
Local Open Scope N_scope.

(** The context with another output queue, and the messages a step adds to it *)
Definition adds (c : ctx) (f : ctx -> ctx * list cobs) : Prop :=
  exists ext, c_messages (fst (f c)) = c_messages c ++ ext /\
    forall q, f (set_messages c q) = (set_messages (fst (f c)) (q ++ ext), snd (f c)).
Definition adds3 {A} (c : ctx) (f : ctx -> A * ctx * list cobs) : Prop :=
  exists ext, c_messages (snd (fst (f c))) = c_messages c ++ ext /\
    forall q, f (set_messages c q) = (fst (fst (f c)), set_messages (snd (fst (f c))) (q ++ ext), snd (f c)).

Lemma set_messages_id c : set_messages c (c_messages c) = c.
Proof. now destruct c. Qed.
Lemma send_control_adds t m c : adds c (fun c => send_control t c m).
Proof.
  exists [amsg_of_cmsg m]. unfold send_control. destruct c as [g q a e [] r rd cl lp lc v]; cbn; split; reflexivity.
Qed.
Lemma send_unconfirmed_adds t m c : adds c (fun c => send_unconfirmed t c m).
Proof.
  exists [amsg_of_cmsg m]. unfold send_unconfirmed, send_control. destruct c as [g q a e [] r rd cl lp lc v]; cbn; split; reflexivity.
Qed.
Lemma next_adds c q : c_next_id (set_messages c q) = (fst (c_next_id c), set_messages (snd (c_next_id c)) q) /\ c_messages (snd (c_next_id c)) = c_messages c.
Proof. unfold c_next_id. cbn [c_mgr set_messages]. destruct (next_id _) as [id f]. split; reflexivity. Qed.
Lemma send_ping_adds t c : adds c (fun c => send_ping t c).
Proof.
  unfold adds, send_ping. destruct (next_adds c []) as [_ N0]. pose proof (fun q => proj1 (next_adds c q)) as N1. destruct (c_next_id c) as [id c1]. cbn [fst snd] in *.
  destruct (send_unconfirmed_adds t (mk_ping id) c1) as [ext [A B]]. exists ext. destruct (send_unconfirmed t c1 (mk_ping id)) as [c2 o]. cbn [fst snd] in *. split.
  - cbn [set_last_ping c_messages]. congruence.
  - intros q. rewrite N1. cbn [fst snd]. rewrite B. reflexivity.
Qed.
Lemma send_update_adds t v1 v2 c : adds c (fun c => send_update t c v1 v2).
Proof.
  unfold adds, send_update. destruct (next_adds c []) as [_ N0]. pose proof (fun q => proj1 (next_adds c q)) as N1. destruct (c_next_id c) as [id c1]. cbn [fst snd] in *.
  destruct (send_control_adds t (mk_update id (table_of_services (v_visible v1))) (set_version c1 (v_version v2))) as [ext [A B]]. exists ext. split.
  - rewrite A. cbn [set_version c_messages]. congruence.
  - intros q. rewrite N1. cbn [fst snd]. rewrite <- B. reflexivity.
Qed.
Lemma adds_same c : adds c (fun c => (c, [])).
Proof. exists []. cbn [fst snd]. split; [now rewrite app_nil_r|]. intros q. now rewrite app_nil_r. Qed.
Lemma check_adds t v0 v1 v2 c : adds c (fun c => check_for_updates t c v0 v1 v2).
Proof.
  unfold adds, check_for_updates. cbn [set_messages c_version]. destruct (c_version c =? v_version v0).
  - exists []. cbn. split; [now rewrite app_nil_r|]. intros q. now rewrite app_nil_r.
  - destruct (send_update_adds t v1 v2 c) as [ext [A B]]. exists ext. destruct (send_update t c v1 v2) as [c1 o]. cbn [fst snd] in *. split; [exact A|].
    intros q. rewrite B. reflexivity.
Qed.
Lemma time_adds t v0 v1 v2 c : adds3 c (fun c => time_event t c v0 v1 v2).
Proof.
  unfold adds3, time_event. cbn [set_messages c_established c_last_ping]. destruct (c_established c).
  - set (f := fun c => if (PING_PERIOD <=? t - c_last_ping c)%Z then send_ping t c else (c, [])).
    assert (F : adds c f).
    { unfold adds, f. cbn [set_messages c_last_ping]. destruct (PING_PERIOD <=? _)%Z; [apply send_ping_adds|apply adds_same]. }
    change (if (PING_PERIOD <=? t - c_last_ping c)%Z then send_ping t c else (c, [])) with (f c).
    destruct F as [e1 [A1 B1]].
    assert (B1' : forall q, (if (PING_PERIOD <=? t - c_last_ping c)%Z then send_ping t (set_messages c q) else (set_messages c q, [])) = (set_messages (fst (f c)) (q ++ e1), snd (f c))).
    { intros q. rewrite <- B1. reflexivity. }
    clear B1. destruct (f c) as [c1 o1]. cbn [fst snd] in *.
    set (g := fun c => if (UPDATE_CHECK_PERIOD <=? t - c_last_check c)%Z then check_for_updates t c v0 v1 v2 else (c, [])).
    assert (G : adds c1 g).
    { unfold adds, g. cbn [set_messages c_last_check]. destruct (UPDATE_CHECK_PERIOD <=? _)%Z; [apply check_adds|apply adds_same]. }
    change (if (UPDATE_CHECK_PERIOD <=? t - c_last_check c1)%Z then check_for_updates t c1 v0 v1 v2 else (c1, [])) with (g c1).
    destruct G as [e2 [A2 B2]].
    assert (B2' : forall q, (if (UPDATE_CHECK_PERIOD <=? t - c_last_check (set_messages c1 q))%Z then check_for_updates t (set_messages c1 q) v0 v1 v2 else (set_messages c1 q, [])) = (set_messages (fst (g c1)) (q ++ e2), snd (g c1))).
    { intros q. rewrite <- B2. reflexivity. }
    clear B2. destruct (g c1) as [c2 o2]. cbn [fst snd] in *. exists (e1 ++ e2). split; [rewrite A2, A1; now rewrite app_assoc|].
    intros q. rewrite B1'. rewrite B2'. rewrite <- app_assoc. reflexivity.
  - exists []. cbn. split; [now rewrite app_nil_r|]. intros q. now rewrite app_nil_r.
Qed.
Lemma ack_adds e c id err : adds3 c (fun c => let '(r, c1) := process_ack e c id err in (r, c1, [])).
Proof.
  exists []. unfold process_ack, handshake_ack. cbn [set_messages c_acks c_established]. split.
  - destruct (c_acks c) as [|[t0 x] l]; cbn; rewrite app_nil_r; [reflexivity|].
    repeat match goal with |- context [if ?b then _ else _] => destruct b end; reflexivity.
  - intros q. rewrite app_nil_r. destruct (c_acks c) as [|[t0 x] l]; cbn; [reflexivity|].
    repeat match goal with |- context [if ?b then _ else _] => destruct b end; reflexivity.
Qed.
Lemma control_adds t e m c : adds3 c (fun c => process_control t e c m).
Proof.
  assert (K : forall k : option ekind, adds3 c (fun c => (k, c, []))).
  { intros k. exists []. cbn. split; [now rewrite app_nil_r|]. intros q. now rewrite app_nil_r. }
  assert (X : forall f : ctx -> ctx * list cobs, adds c f -> adds3 c (fun c => if c_established c then (None, fst (f c), snd (f c)) else (Some OtherError, c, []))).
  { intros f [ext [A B]]. unfold adds3. cbn [set_messages c_established]. destruct (c_established c).
    - exists ext. cbn [fst snd]. split; [exact A|]. intros q. rewrite B. reflexivity.
    - exists []. cbn [fst snd]. split; [now rewrite app_nil_r|]. intros q. now rewrite app_nil_r. }
  assert (L : forall h : mgr -> mgr * list mobs, adds c (fun c => lift_mgr c (h (c_mgr c)))).
  { intros h. exists []. unfold lift_mgr. cbn [set_messages c_mgr]. destruct (h (c_mgr c)) as [g o]. cbn. split; [now rewrite app_nil_r|]. intros q. now rewrite app_nil_r. }
  unfold process_control. destruct (message_type (cm_type m)); destruct (cm_body m); try apply K; try (apply ack_adds); try (apply X).
  all: try (apply (send_control_adds t (mk_ack (cm_id m) 0))).
  all: try (apply (L (fun g => mgr_connect g _ _ _))). all: try (apply (L (fun g => mgr_data_ack g _ _))). all: try (apply (L (fun g => mgr_close g _))).
  all: try (exists []; cbn; split; [now rewrite app_nil_r|]; intros q; now rewrite app_nil_r).
  all: try (exists []; cbn; destruct (c_task c); cbn; (split; [now rewrite app_nil_r|]); intros q; now rewrite app_nil_r).
  all: unfold adds; destruct (next_adds c []) as [_ N0]; pose proof (fun q => proj1 (next_adds c q)) as N1;
    destruct (c_next_id c) as [id c1]; cbn [fst snd] in *;
    match goal with |- context [send_control ?t0 ?c0 ?k] => destruct (send_control_adds t0 k c0) as [ext [A B]] end; exists ext; (split; [congruence|]);
    intros q; rewrite N1; cbn [fst snd]; apply B.
Qed.
Lemma message_adds t e m c : adds3 c (fun c => process_message t e c m).
Proof.
  set (f := fun c => if m_service m =? 0 then match cmsg_from_bytes (m_payload m) with ROk cm => process_control t e c cm | RErr => (Some OtherError, c, []) | RPanic => (Some EPanic, c, []) end
        else if c_established c then let '(c1, o) := lift_mgr c (mgr_send (c_mgr c) m) in (None, c1, o) else (Some OtherError, c, [])).
  assert (K : forall k : option ekind, adds3 c (fun c => (k, c, []))).
  { intros k. exists []. cbn. split; [now rewrite app_nil_r|]. intros q. now rewrite app_nil_r. }
  assert (F : adds3 c f).
  { unfold f. destruct (m_service m =? 0).
    - destruct (cmsg_from_bytes (m_payload m)); [apply control_adds|apply K|apply K].
    - unfold adds3, lift_mgr. cbn [set_messages c_established c_mgr]. destruct (c_established c).
      + destruct (mgr_send (c_mgr c) m) as [g o]. exists []. cbn. split; [now rewrite app_nil_r|]. intros q. now rewrite app_nil_r.
      + apply K. }
  assert (P : forall c, process_message t e c m = if is_closed c then (None, c, []) else let '(r, c1, o) := f c in (r, c1, XRecv e m :: o)) by reflexivity.
  clearbody f. unfold adds3. rewrite P. assert (Q : forall q, is_closed (set_messages c q) = is_closed c) by reflexivity.
  destruct (is_closed c) eqn:C.
  - exists []. cbn [fst snd]. split; [now rewrite app_nil_r|]. intros q. rewrite P, Q. now rewrite app_nil_r.
  - destruct F as [ext [A B]]. exists ext. destruct (f c) as [[r c1] o]. cbn [fst snd] in *. split; [exact A|]. intros q. rewrite P, Q, B. reflexivity.
Qed.
Lemma feed_adds i c : adds3 c (fun c => feed_item c i).
Proof.
  destruct i as [t e m| |]; [apply message_adds| |]; exists []; cbn; (split; [now rewrite app_nil_r|]); intros q; now rewrite app_nil_r.
Qed.

Section Rel.
  Variables r r' : cmsg.
  Lemma ctx_shape c c' : same_context r r' c c' -> exists q, c' = set_messages c q /\ Forall2 (same_message r r') (c_messages c) q.
  Proof.
    intros [F E]. exists (c_messages c'). split; [|exact F]. destruct c, c'. unfold set_messages in *. cbn in *. injection E. intros. subst. reflexivity.
  Qed.
  Lemma shape_ctx c q : Forall2 (same_message r r') (c_messages c) q -> same_context r r' c (set_messages c q).
  Proof. intros F. split; [exact F|reflexivity]. Qed.
  Lemma refl_messages l : Forall2 (same_message r r') l l.
  Proof. induction l; constructor; [now left|assumption]. Qed.
  Lemma refl_effects l : Forall2 (same_effect r r') l l.
  Proof. induction l; constructor; [now left|assumption]. Qed.
  Lemma adds3_rel {A} (f : ctx -> A * ctx * list cobs) c c' : adds3 c f -> same_context r r' c c' ->
    exists c1 c1', f c = (fst (fst (f c)), c1, snd (f c)) /\ f c' = (fst (fst (f c)), c1', snd (f c)) /\ same_context r r' c1 c1'.
  Proof.
    intros [ext [E B]] S. apply ctx_shape in S. destruct S as [q [-> F]]. exists (snd (fst (f c))), (set_messages (snd (fst (f c))) (q ++ ext)).
    split; [now destruct (f c) as [[x y] z]|]. split; [apply B|]. apply shape_ctx. rewrite E. apply Forall2_app; [exact F|apply refl_messages].
  Qed.

  Definition same_polled (p p' : polled) : Prop :=
    match p, p' with PReady m, PReady m' => same_message r r' m m' | _, _ => p = p' end.
  Lemma poll_rel c c' : same_context r r' c c' ->
    exists p p' c1 c1' o, ctx_poll c = (p, c1, o) /\ ctx_poll c' = (p', c1', o) /\ same_polled p p' /\ same_context r r' c1 c1'.
  Proof.
    intros S. apply ctx_shape in S. destruct S as [q [-> F]]. unfold ctx_poll. change (is_closed (set_messages c q)) with (is_closed c).
    destruct (is_closed c); [exists PEnd, PEnd, c, (set_messages c q), []; repeat split; now apply shape_ctx|].
    cbn [c_messages set_messages c_mgr c_task]. remember (c_messages c) as l eqn:EL. destruct F as [|m m' l q M F].
    - destruct (mgr_poll (c_mgr c)) as [g o]. destruct (polled_msg o) as [m|]; eexists; eexists; eexists; eexists; eexists; (split; [reflexivity|]); (split; [reflexivity|]).
      + split; [now left|]. split; [cbn; rewrite <- EL; constructor|reflexivity].
      + split; [reflexivity|]. split; [cbn; rewrite <- EL; constructor|reflexivity].
    - exists (PReady m), (PReady m'). eexists; eexists; eexists. split; [reflexivity|]. split; [reflexivity|]. split; [exact M|]. split; [exact F|reflexivity].
  Qed.
  Lemma loop_rel items : forall c c', same_context r r' c c' ->
    exists p p' c1 c1' o, client_loop c items = (p, c1, o) /\ client_loop c' items = (p', c1', o) /\ same_polled p p' /\ same_context r r' c1 c1'.
  Proof.
    induction items as [|i items IH]; intros c c' S; destruct (poll_rel c c' S) as [p [p' [c1 [c1' [o [E [E' [P R]]]]]]]]; cbn [client_loop]; rewrite E, E'.
    - destruct p, p'; cbn [same_polled] in P; try discriminate P; (eexists; eexists; eexists; eexists; eexists; (split; [reflexivity|]); (split; [reflexivity|]); split; [exact P|exact R]).
    - destruct p, p'; cbn [same_polled] in P; try discriminate P; try (eexists; eexists; eexists; eexists; eexists; (split; [reflexivity|]); (split; [reflexivity|]); split; [exact P|exact R]).
      destruct (adds3_rel _ _ _ (feed_adds i c1) R) as [c2 [c2' [Q [Q' S2]]]]. rewrite Q, Q'. clear Q Q'. destruct (feed_item c1 i) as [[k u] o2]. cbn [fst snd]. cbv beta iota.
      destruct k as [k|]; [exists (PError k), (PError k), c2, c2', (o ++ o2); do 3 (split; [reflexivity|]); exact S2|].
      destruct (IH _ _ S2) as [p [p' [c3 [c3' [o3 [L [L' [PP RR]]]]]]]]. rewrite L, L'. exists p, p', c3, c3', (o ++ o2 ++ o3). auto.
  Qed.
  Lemma client_poll_rel items c c' : same_context r r' c c' ->
    exists p p' c1 c1' o, client_poll c items = (p, c1, o) /\ client_poll c' items = (p', c1', o) /\ same_polled p p' /\ same_context r r' c1 c1'.
  Proof.
    intros S. destruct items as [|i items]; [now apply loop_rel|]. unfold client_poll.
    destruct (adds3_rel _ _ _ (feed_adds i c) S) as [c2 [c2' [Q [Q' S2]]]]. rewrite Q, Q'. clear Q Q'. destruct (feed_item c i) as [[k u] o2]. cbn [fst snd]. cbv beta iota.
    destruct k as [k|]; [exists (PError k), (PError k), c2, c2', o2; do 3 (split; [reflexivity|]); exact S2|].
    destruct (loop_rel items _ _ S2) as [p [p' [c3 [c3' [o3 [L [L' [PP RR]]]]]]]]. rewrite L, L'. exists p, p', c3, c3', (o2 ++ o3). auto.
  Qed.

  Definition same_conn (k k' : conn) : Prop := same_context r r' (k_ctx k) (k_ctx k') /\ k_result k = k_result k'.
  Lemma same_redirect c c' : same_context r r' c c' -> final_result c = final_result c' /\ is_closed c = is_closed c'.
  Proof. intros S. apply ctx_shape in S. destruct S as [q [-> _]]. split; reflexivity. Qed.
  Lemma step_rel e k k' : same_conn k k' -> exists k1 k1' o o', conn_step k e = (k1, o) /\ conn_step k' e = (k1', o') /\ same_conn k1 k1' /\ Forall2 (same_effect r r') o o'.
  Proof.
    intros [S E]. unfold conn_step. rewrite <- E. destruct (k_result k) eqn:K.
    { exists k, k', [], []. repeat split; try constructor; try apply S; congruence. }
    destruct e as [items|t v0 v1 v2| |sid te].
    - destruct (client_poll_rel items _ _ S) as [p [p' [c1 [c1' [o [P [P' [PP R]]]]]]]]. rewrite P, P'.
      destruct p, p'; cbn [same_polled] in PP; try discriminate PP.
      + eexists; eexists; eexists; eexists. split; [reflexivity|]. split; [reflexivity|]. split; [now split|]. apply Forall2_app; [apply refl_effects|].
        constructor; [|constructor]. destruct PP as [->|[-> ->]]; [now left|]. right. right. auto.
      + eexists; eexists; eexists; eexists. split; [reflexivity|]. split; [reflexivity|]. split; [split; [exact R|cbn; congruence]|apply refl_effects].
      + eexists; eexists; eexists; eexists. split; [reflexivity|]. split; [reflexivity|]. split; [split; [exact R|cbn; now rewrite (proj1 (same_redirect _ _ R))]|apply refl_effects].
      + eexists; eexists; eexists; eexists. split; [reflexivity|]. split; [reflexivity|]. split; [split; [exact R|reflexivity]|apply refl_effects].
    - destruct (same_redirect _ _ S) as [F C]. rewrite <- C, <- F. destruct (is_closed (k_ctx k)).
      + eexists; eexists; eexists; eexists. split; [reflexivity|]. split; [reflexivity|]. split; [split; [exact S|reflexivity]|constructor].
      + destruct (adds3_rel _ _ _ (time_adds t v0 v1 v2 (k_ctx k)) S) as [c2 [c2' [Q [Q' S2]]]]. rewrite Q, Q'.
        eexists; eexists; eexists; eexists. split; [reflexivity|]. split; [reflexivity|]. split; [split; [exact S2|reflexivity]|apply refl_effects].
    - eexists; eexists; eexists; eexists. split; [reflexivity|]. split; [reflexivity|]. split; [split; [exact S|reflexivity]|constructor].
    - apply ctx_shape in S. destruct S as [q [-> F]]. cbn [set_messages c_mgr]. unfold lift_mgr. destruct (mgr_step _ _) as [g o].
      eexists; eexists; eexists; eexists. split; [reflexivity|]. split; [reflexivity|]. split; [split; [split; [exact F|reflexivity]|reflexivity]|apply refl_effects].
  Qed.
  Lemma run_rel es : forall k k', same_conn k k' -> exists k1 k1' o o', conn_run k es = (k1, o) /\ conn_run k' es = (k1', o') /\ same_conn k1 k1' /\ Forall2 (same_effect r r') o o'.
  Proof.
    induction es as [|e es IH]; intros k k' S; [exists k, k', [], []; auto|]. cbn [conn_run].
    destruct (step_rel e _ _ S) as [k1 [k1' [o [o' [-> [-> [S1 O]]]]]]]. destruct (IH _ _ S1) as [k2 [k2' [p [p' [-> [-> [S2 P]]]]]]].
    exists k2, k2', (o ++ p), (o' ++ p'). repeat split; try apply S2. now apply Forall2_app.
  Qed.
End Rel.

Lemma connection_secrecy t i i' v1 v2 es :
  id_gateway i = id_gateway i' ->
  exists id r r' k k' o o',
    mk_register id (id_uuid i) (id_key i) (id_mac i) SESSION_WINDOW_SIZE (id_gateway i) (table_of_services (v_visible v1)) (id_info i) = ROk r /\
    mk_register id (id_uuid i') (id_key i') (id_mac i') SESSION_WINDOW_SIZE (id_gateway i') (table_of_services (v_visible v1)) (id_info i') = ROk r' /\
    connection t i v1 v2 es = (k, o) /\ connection t i' v1 v2 es = (k', o') /\
    k_result k = k_result k' /\ same_context r r' (k_ctx k) (k_ctx k') /\ Forall2 (same_effect r r') o o'.
Proof.
  intros G. unfold connection, conn_new, ctx_new. rewrite <- G. set (c0 := {| c_mgr := _ |}).
  assert (Q : c_messages (snd (c_next_id c0)) = []) by reflexivity. destruct (c_next_id c0) as [id c1]. cbn [snd] in Q. unfold mk_register.
  change (SESSION_WINDOW_SIZE =? 0) with false. change (65536 <? SESSION_WINDOW_SIZE) with false. cbv iota.
  set (r := {| cm_id := id; cm_type := 2; cm_body := BRegister (id_uuid i) (id_key i) _ _ _ _ _ |}).
  set (r' := {| cm_id := id; cm_type := 2; cm_body := BRegister (id_uuid i') (id_key i') _ _ _ _ _ |}).
  set (c2 := set_version c1 (v_version v2)) in *.
  assert (S : exists k k', send_unconfirmed t c2 r = (k, [XQueue t r]) /\ send_unconfirmed t c2 r' = (k', [XQueue t r']) /\ same_context r r' k k').
  { unfold send_unconfirmed, send_control. eexists; eexists. split; [reflexivity|]. split; [reflexivity|]. change (cm_id r') with (cm_id r).
    subst c2. cbn [c_task set_messages set_acks set_version c_messages]. rewrite Q. cbn [app].
    destruct (c_task c1); (split; [cbn; constructor; [right; auto|constructor]|reflexivity]). }
  destruct S as [k [k' [-> [-> S]]]].
  destruct (run_rel r r' es {| k_ctx := k; k_result := None |} {| k_ctx := k'; k_result := None |}) as [k1 [k1' [o [o' [-> [-> [[S1 S2] O]]]]]]]; [split; [exact S|reflexivity]|].
  exists id, r, r', k1, k1'. eexists; eexists. do 4 (split; [reflexivity|]). split; [exact S2|]. split; [exact S1|].
  constructor; [right; left; eauto|exact O].
Qed.
