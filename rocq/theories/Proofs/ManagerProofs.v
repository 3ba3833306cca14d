(** Invariants of the session manager. *)
From Coq Require Import NArith List Bool Lia ZArith ZifyBool ZifyNat ZifyN.
From Verif.Model Require Import Bytes Frame Service Control Alist Session Manager.
From Verif.Spec Require Import SessionSpec ManagerSpec.
From Verif.Proofs Require Import BytesFacts AlistFacts SessionProofs.
Import ListNotations.
Local Open Scope N_scope.

Ltac gsimp := cbn [g_window g_gateway g_factory g_queue g_sessions g_order g_task g_run set_factory set_queue
  set_sessions set_order set_task set_sess] in *.

Lemma mgr_run_app g es1 es2 :
  mgr_run g (es1 ++ es2) =
  let '(g1, o1) := mgr_run g es1 in let '(g2, o2) := mgr_run g1 es2 in (g2, o1 ++ o2).
Proof.
  revert g. induction es1 as [|e es1 IH]; intros g; cbn [app mgr_run].
  - destruct (mgr_run g es2); reflexivity.
  - destruct (mgr_step g e) as [g1 o1]. rewrite IH. destruct (mgr_run g1 es1) as [g2 o2].
    destruct (mgr_run g2 es2) as [g3 o3]. now rewrite app_assoc.
Qed.
Lemma mgr_run_snoc g es e :
  mgr_run g (es ++ [e]) =
  let '(g1, o1) := mgr_run g es in let '(g2, o2) := mgr_step g1 e in (g2, o1 ++ o2).
Proof.
  rewrite mgr_run_app. destruct (mgr_run g es) as [g1 o1]. cbn [mgr_run].
  destruct (mgr_step g1 e) as [g2 o2]. now rewrite app_nil_r.
Qed.

(** ** Lives of sessions and their histories *)
Definition is_live (g : mgr) (sid : N) : bool := match find_sess g sid with Some _ => true | None => false end.

Record hist_ok (W : N) (g : mgr) (h : list mobs) : Prop := {
  ho_life : forall sid, life sid h = Some (is_live g sid);
  ho_sess : forall sid s, find_sess g sid = Some s ->
    exists svc, sess_run (sess_new svc sid W) (map fst (since_open sid h)) = (s, concat (map snd (since_open sid h)))
}.

Lemma life_app sid h x : life sid (h ++ [x]) = life_step sid (life sid h) x.
Proof. unfold life. rewrite fold_left_app. reflexivity. Qed.
Lemma since_app sid h x : since_open sid (h ++ [x]) = since_step sid (since_open sid h) x.
Proof. unfold since_open. rewrite fold_left_app. reflexivity. Qed.

Lemma hist_ext W g g' h : g_sessions g' = g_sessions g -> hist_ok W g h -> hist_ok W g' h.
Proof.
  intros E [A B]. split.
  - intros sid. unfold is_live, find_sess. rewrite E. apply A.
  - intros sid s. unfold find_sess. rewrite E. apply B.
Qed.

Lemma hist_take W g h sid s e s' o :
  hist_ok W g h -> find_sess g sid = Some s -> sess_step s e = (s', o) ->
  hist_ok W (set_sess g sid s') (h ++ [OSess sid e o]).
Proof.
  intros [A B] Hs He. split.
  - intros k. rewrite life_app, A. unfold is_live, find_sess. gsimp. rewrite alookup_insert. cbn [life_step].
    rewrite (N.eqb_sym sid k). destruct (N.eqb_spec k sid) as [->|Hk]; [|reflexivity].
    unfold find_sess in Hs. rewrite Hs. reflexivity.
  - intros k t. unfold find_sess. gsimp. rewrite alookup_insert, since_app. cbn [since_step].
    rewrite (N.eqb_sym sid k). destruct (N.eqb_spec k sid) as [->|Hk]; [|apply B].
    intros [= <-]. destruct (B sid s Hs) as [svc Hrun]. exists svc.
    rewrite map_app, map_app, concat_app. cbn [map fst snd concat]. rewrite sess_run_snoc, Hrun, He, app_nil_r. reflexivity.
Qed.

Definition ends (sid : N) (x : mobs) : Prop := (exists c m, x = OMsg (EndOf sid c) m) \/ x = ORemoved sid.

Lemma hist_end W g h sid x :
  hist_ok W g h -> is_live g sid = true -> ends sid x ->
  hist_ok W (set_sessions g (aremove sid (g_sessions g))) (h ++ [x]).
Proof.
  intros [A B] Hl Hx. split.
  - intros k. rewrite life_app, A. unfold is_live in *. unfold find_sess in *. gsimp. rewrite alookup_remove.
    destruct Hx as [(c & m & ->)| ->]; cbn [life_step]; rewrite (N.eqb_sym sid k);
      (destruct (N.eqb_spec k sid) as [->|Hk]; [|reflexivity]); rewrite Hl; reflexivity.
  - intros k t. unfold find_sess. gsimp. rewrite alookup_remove, since_app.
    assert (E : since_step sid (since_open k h) x = since_open k h /\ since_step k (since_open k h) x = since_open k h)
      by (destruct Hx as [(c & m & ->)| ->]; split; reflexivity).
    destruct (N.eqb k sid); [discriminate|]. rewrite (proj2 E). apply B.
Qed.

(** Observations that concern no session. *)
Definition neutral (g : mgr) (x : mobs) : Prop :=
  match x with
  | OQueued _ | OMsg FromQueue _ => True
  | OMsg (FromSession sid) _ => is_live g sid = true
  | _ => False
  end.

Lemma hist_neutral W g h x : hist_ok W g h -> neutral g x -> hist_ok W g (h ++ [x]).
Proof.
  intros [A B] Hx. split.
  - intros k. rewrite life_app, A. destruct x as [| | |m|[|sid|sid c] m]; try contradiction; cbn [life_step]; try reflexivity.
    cbn [neutral] in Hx. destruct (N.eqb_spec sid k) as [->|Hk]; [|reflexivity]. now rewrite Hx.
  - intros k s Hs. rewrite since_app. destruct x as [| | |m|[|sid|sid c] m]; try contradiction; apply B, Hs.
Qed.

Lemma hist_open W g h sid svc t mac a :
  hist_ok W g h -> find_sess g sid = None ->
  hist_ok W (set_sess g sid (sess_new svc sid W)) (h ++ [OOpen sid t mac a]).
Proof.
  intros [A B] Hs. split.
  - intros k. rewrite life_app, A. unfold is_live, find_sess. gsimp. rewrite alookup_insert. cbn [life_step].
    rewrite (N.eqb_sym sid k). destruct (N.eqb_spec k sid) as [->|Hk]; [|reflexivity].
    unfold find_sess in Hs. rewrite Hs. reflexivity.
  - intros k s. unfold find_sess. gsimp. rewrite alookup_insert, since_app. cbn [since_step].
    rewrite (N.eqb_sym sid k). destruct (N.eqb_spec k sid) as [->|Hk]; [|apply B].
    intros [= <-]. exists svc. reflexivity.
Qed.

Lemma snoc2 {A} (h : list A) a b : h ++ [a; b] = (h ++ [a]) ++ [b].
Proof. now rewrite <- app_assoc. Qed.

Lemma take_step f s : sess_step s (ETake f) = (snd (fst (fst (sess_take f s))), snd (sess_take f s)).
Proof. cbn [sess_step]. destruct (sess_take f s) as [[[t s'] f'] o]. reflexivity. Qed.

Lemma live_find g sid s : find_sess g sid = Some s -> is_live g sid = true.
Proof. unfold is_live. now intros ->. Qed.

Lemma poll_loop_hist W n : forall g h,
  hist_ok W g h -> let '(_, g', o) := poll_loop n g in hist_ok W g' (h ++ o).
Proof.
  induction n as [|n IH]; intros g h H; cbn [poll_loop]; [now rewrite app_nil_r|].
  destruct (g_order g) as [|sid rest] eqn:Eo; [apply IH, H|].
  cbv zeta. set (g0 := set_order g rest).
  assert (H0 : hist_ok W g0 h) by (eapply hist_ext; [|exact H]; reflexivity).
  destruct (find_sess g0 sid) as [s|] eqn:Es; [|apply IH, H0].
  pose proof (take_step (g_factory g0) s) as Ht.
  destruct (sess_take (g_factory g0) s) as [[[t s'] f'] o]. cbn [fst snd] in Ht.
  pose proof (hist_take W g0 h sid s _ s' o H0 Es Ht) as H1.
  destruct t as [m| | |].
  - rewrite snoc2. apply hist_neutral; [eapply hist_ext; [|exact H1]; reflexivity|].
    cbn [neutral]. unfold is_live, find_sess. gsimp. now rewrite insert_same.
  - unfold create_hup. cbn [next_id]. rewrite snoc2.
    assert (Hd : hist_ok W (set_sessions (set_sess g0 sid s') (aremove sid (g_sessions (set_sess g0 sid s')))) ((h ++ [OSess sid (ETake (g_factory g0)) o]) ++ [OMsg (EndOf sid EC_CONNECTION_ERROR) (amsg_of_cmsg (mk_hup (u16 (g_factory (set_sessions (set_factory g0 f') (aremove sid (g_sessions (set_factory g0 f')))))) sid EC_CONNECTION_ERROR))])).
    { apply hist_end; [exact H1| |left; eauto]. unfold is_live, find_sess. gsimp. now rewrite insert_same. }
    destruct Hd as [A B]. split.
    + intros k. rewrite (A k). unfold is_live, find_sess. gsimp. rewrite !alookup_remove, alookup_insert.
      destruct (N.eqb k sid); reflexivity.
    + intros k u. specialize (B k u). unfold find_sess in *. gsimp. rewrite !alookup_remove, ?alookup_insert in *.
      destruct (N.eqb k sid); [discriminate|]. exact B.
  - unfold create_hup. cbn [next_id]. rewrite snoc2.
    assert (Hd : hist_ok W (set_sessions (set_sess g0 sid s') (aremove sid (g_sessions (set_sess g0 sid s')))) ((h ++ [OSess sid (ETake (g_factory g0)) o]) ++ [OMsg (EndOf sid EC_NO_ERROR) (amsg_of_cmsg (mk_hup (u16 (g_factory (set_sessions (set_factory g0 f') (aremove sid (g_sessions (set_factory g0 f')))))) sid EC_NO_ERROR))])).
    { apply hist_end; [exact H1| |left; eauto]. unfold is_live, find_sess. gsimp. now rewrite insert_same. }
    destruct Hd as [A B]. split.
    + intros k. rewrite (A k). unfold is_live, find_sess. gsimp. rewrite !alookup_remove, alookup_insert.
      destruct (N.eqb k sid); reflexivity.
    + intros k u. specialize (B k u). unfold find_sess in *. gsimp. rewrite !alookup_remove, ?alookup_insert in *.
      destruct (N.eqb k sid); [discriminate|]. exact B.
  - set (g2 := set_order (set_sess _ _ _) _). specialize (IH g2 (h ++ [OSess sid (ETake (g_factory g0)) o])).
    assert (H2 : hist_ok W g2 (h ++ [OSess sid (ETake (g_factory g0)) o])) by (eapply hist_ext; [|exact H1]; reflexivity).
    specialize (IH H2). destruct (poll_loop n g2) as [[r g3] os]. now rewrite <- app_assoc in IH.
Qed.

Record step_inv (W : N) (g : mgr) (h : list mobs) : Prop := {
  si_hist : hist_ok W g h;
  si_order : forall sid, is_live g sid = true -> In sid (g_order g);
  si_task : g_run g = false -> g_task g = true;
  si_win : g_window g = W
}.

Lemma wake_task_fields g :
  g_window (wake_task g) = g_window g /\ g_gateway (wake_task g) = g_gateway g /\ g_factory (wake_task g) = g_factory g /\
  g_queue (wake_task g) = g_queue g /\ g_sessions (wake_task g) = g_sessions g /\ g_order (wake_task g) = g_order g.
Proof. unfold wake_task. destruct (g_task g); repeat split. Qed.

Lemma wake_task_run g : (g_run g = false -> g_task g = true) -> g_run (wake_task g) = true.
Proof. unfold wake_task. destruct (g_task g) eqn:E; [reflexivity|]. destruct (g_run g); [reflexivity|]. intros H. now specialize (H eq_refl). Qed.

Lemma live_ext g g' sid : g_sessions g' = g_sessions g -> is_live g' sid = is_live g sid.
Proof. intros E. unfold is_live, find_sess. now rewrite E. Qed.

(** The loop keeps live sessions in the order. *)
Lemma poll_loop_order n : forall g,
  (forall sid, is_live g sid = true -> In sid (g_order g)) ->
  let '(_, g', _) := poll_loop n g in forall sid, is_live g' sid = true -> In sid (g_order g').
Proof.
  induction n as [|n IH]; intros g H; cbn [poll_loop]; [exact H|].
  destruct (g_order g) as [|sid rest] eqn:Eo; [apply IH; now rewrite Eo|].
  cbv zeta. set (g0 := set_order g rest).
  assert (H0 : forall k, is_live g k = true -> k = sid \/ In k rest).
  { intros k Hk. specialize (H k Hk). destruct H as [->|H]; auto. }
  destruct (find_sess g0 sid) as [s|] eqn:Es.
  - destruct (sess_take (g_factory g0) s) as [[[t s'] f'] o].
    assert (Hput : forall k, is_live (set_order (set_sess (set_factory g0 f') sid s') (g_order (set_factory g0 f') ++ [sid])) k = true ->
      In k (rest ++ [sid])).
    { intros k. unfold is_live, find_sess. gsimp. rewrite alookup_insert. intros Hk. apply in_or_app.
      destruct (N.eqb_spec k sid) as [E|Hn]; [subst k; right; now left|].
      destruct (H0 k) as [->|Hin]; [unfold is_live, find_sess; exact Hk|contradiction|now left]. }
    assert (Hrem : forall k g', g_sessions g' = aremove sid (g_sessions g) -> g_order g' = rest ->
      is_live g' k = true -> In k (g_order g')).
    { intros k g' E1 E2. unfold is_live, find_sess. rewrite E1, E2, alookup_remove. intros Hk.
      destruct (N.eqb_spec k sid) as [E|Hn]; [discriminate|].
      destruct (H0 k) as [->|Hin]; [unfold is_live, find_sess; exact Hk|contradiction|exact Hin]. }
    destruct t as [m| | |].
    + exact Hput.
    + unfold create_hup. cbn [next_id]. intros k. apply Hrem; reflexivity.
    + unfold create_hup. cbn [next_id]. intros k. apply Hrem; reflexivity.
    + set (g2 := set_order (set_sess _ _ _) _). specialize (IH g2 Hput). destruct (poll_loop n g2) as [[r g3] os]. exact IH.
  - apply IH. intros k Hk. unfold g0 in Hk. rewrite (live_ext g) in Hk by reflexivity.
    destruct (H0 k Hk) as [->|Hin]; [|exact Hin].
    unfold is_live in Hk. unfold g0, find_sess in Es. gsimp. unfold find_sess in Hk. rewrite Es in Hk. discriminate.
Qed.

Lemma poll_loop_rest n : forall g,
  let '(_, g', _) := poll_loop n g in
  g_window g' = g_window g /\ g_gateway g' = g_gateway g /\ g_queue g' = g_queue g /\ g_task g' = g_task g /\ g_run g' = g_run g.
Proof.
  induction n as [|n IH]; intros g; cbn [poll_loop]; [repeat split|].
  destruct (g_order g) as [|sid rest] eqn:Eo; [apply IH|].
  cbv zeta. set (g0 := set_order g rest).
  destruct (find_sess g0 sid) as [s|] eqn:Es; [|apply (IH g0)].
  destruct (sess_take (g_factory g0) s) as [[[t s'] f'] o].
  destruct t as [m| | |]; unfold create_hup; cbn [next_id]; try (repeat split; fail).
  set (g2 := set_order (set_sess _ _ _) _). specialize (IH g2). destruct (poll_loop n g2) as [[r g3] os]. exact IH.
Qed.

Lemma set_sess_order g sid s s' :
  find_sess g sid = Some s ->
  (forall k, is_live g k = true -> In k (g_order g)) ->
  forall k, is_live (set_sess g sid s') k = true -> In k (g_order (set_sess g sid s')).
Proof.
  intros Hs H k. unfold is_live, find_sess. gsimp. rewrite alookup_insert.
  destruct (N.eqb_spec k sid) as [E|Hn]; intros Hk; apply H.
  - subst k. now apply (live_find _ _ s).
  - unfold is_live, find_sess. exact Hk.
Qed.

Lemma step_inv_put W g h sid s e :
  step_inv W g h -> find_sess g sid = Some s ->
  let '(s', o) := sess_step s e in step_inv W (set_sess g sid s') (h ++ [OSess sid e o]).
Proof.
  intros [A B C D] Hs. destruct (sess_step s e) as [s' o] eqn:He. split; auto.
  - eapply hist_take; eauto.
  - eapply set_sess_order; eauto.
Qed.

Lemma step_inv_queue W g h sid c :
  step_inv W g h ->
  let '(m, g1) := create_hup g sid c in
  step_inv W (wake_task (set_queue g1 (g_queue g1 ++ [m]))) (h ++ [OQueued m]).
Proof.
  intros [A B C D]. unfold create_hup. cbn [next_id]. set (g2 := set_queue _ _).
  destruct (wake_task_fields g2) as (E1 & E2 & E3 & E4 & E5 & E6). split.
  - apply hist_neutral; [|exact I]. eapply hist_ext; [|exact A]. now rewrite E5.
  - intros k Hk. rewrite (live_ext g) in Hk by (now rewrite E5). rewrite E6. now apply B.
  - intros Hr. rewrite wake_task_run in Hr; [discriminate|exact C].
  - now rewrite E1.
Qed.

Lemma mgr_step_inv W g h e :
  step_inv W g h -> let '(g', o) := mgr_step g e in step_inv W g' (h ++ o).
Proof.
  intros H. destruct e as [get svc sid|m|sid|sid len| |sid t|ids]; cbn [mgr_step].
  - unfold mgr_connect. destruct (connect_inner g get svc sid) as [[[t mac] a]|] eqn:Ec; [|apply (step_inv_queue W g h sid EC_CONNECTION_ERROR H)].
    cbv zeta. set (g2 := wake_task _).
    destruct (wake_task_fields (set_order g (g_order g ++ [sid]))) as (E1 & E2 & E3 & E4 & E5 & E6). fold g2 in E1, E2, E3, E4, E5, E6. gsimp.
    destruct H as [A B C D].
    assert (Er : g_run g2 = true) by (apply wake_task_run; exact C). rewrite Er, D.
    change (with_mgr (sess_new svc sid W) (s_mgr_waker (sess_new svc sid W)) true) with (sess_new svc sid W).
    assert (Hn : find_sess g sid = None) by (unfold connect_inner in Ec; destruct (find_sess g sid); [discriminate|reflexivity]).
    assert (Hn2 : find_sess g2 sid = None) by (unfold find_sess; now rewrite E5).
    split.
    + apply hist_open; [|exact Hn2]. eapply hist_ext; [|exact A]. exact E5.
    + intros k. unfold is_live, find_sess. gsimp. rewrite alookup_insert, E5, E6. intros Hk. apply in_or_app.
      destruct (N.eqb_spec k sid) as [E|Hne]; [subst k; right; now left|left]. apply B. exact Hk.
    + gsimp. rewrite Er. discriminate.
    + gsimp. now rewrite E1.
  - unfold mgr_send. cbv zeta. destruct (find_sess g (m_session m)) as [s|] eqn:Es; [|apply (step_inv_queue W g h _ EC_CONNECTION_ERROR H)].
    pose proof (step_inv_put W g h _ s (EPush (m_payload m)) H Es) as Hp.
    destruct (sess_step s (EPush (m_payload m))) as [s' o]. exact Hp.
  - unfold mgr_close. destruct (find_sess g sid) as [s|] eqn:Es; [|now rewrite app_nil_r].
    pose proof (step_inv_put W g h _ s EClose H Es) as Hp.
    destruct (sess_step s EClose) as [s' o]. destruct Hp as [A B C D]. destruct H as [_ B0 _ _].
    rewrite snoc2.
    assert (Hh : hist_ok W (set_sessions (set_sess g sid s') (aremove sid (g_sessions (set_sess g sid s')))) ((h ++ [OSess sid EClose o]) ++ [ORemoved sid])).
    { apply hist_end; [exact A| |now right]. unfold is_live, find_sess. gsimp. now rewrite insert_same. }
    split; auto.
    + destruct Hh as [A1 B1]. split.
      * intros k. rewrite (A1 k). unfold is_live, find_sess. gsimp. rewrite !alookup_remove, alookup_insert.
        destruct (N.eqb k sid); reflexivity.
      * intros k u. specialize (B1 k u). unfold find_sess in *. gsimp. rewrite !alookup_remove, ?alookup_insert in *.
        destruct (N.eqb k sid); [discriminate|]. exact B1.
    + intros k. unfold is_live, find_sess. gsimp. rewrite alookup_remove. intros Hk. apply B0.
      destruct (N.eqb k sid); [discriminate|]. exact Hk.
  - unfold mgr_data_ack. destruct (find_sess g sid) as [s|] eqn:Es; [|now rewrite app_nil_r].
    pose proof (step_inv_put W g h _ s (EDataAck len) H Es) as Hp.
    destruct (sess_step s (EDataAck len)) as [s' o]. exact Hp.
  - unfold mgr_poll. destruct H as [A B C D]. destruct (g_queue g) as [|m q] eqn:Eq.
    + pose proof (poll_loop_hist W (length (g_order g)) g h A) as H1.
      pose proof (poll_loop_order (length (g_order g)) g B) as H2.
      pose proof (poll_loop_rest (length (g_order g)) g) as H3.
      destruct (poll_loop (length (g_order g)) g) as [[r g1] o]. destruct H3 as (E1 & E2 & E3 & E4 & E5).
      destruct r; split; gsimp; auto; try (rewrite E1; exact D); try (intros; discriminate).
      * eapply hist_ext; [|exact H1]; reflexivity.
      * eapply hist_ext; [|exact H1]; reflexivity.
    + split; gsimp; auto; try (intros; discriminate). apply hist_neutral; [|exact I]. eapply hist_ext; [|exact A]; reflexivity.
  - destruct (find_sess g sid) as [s|] eqn:Es; [|now rewrite app_nil_r].
    pose proof (step_inv_put W g h _ s (sev_of t) H Es) as Hp.
    destruct (sess_step s (sev_of t)) as [s' o]. exact Hp.
  - rewrite app_nil_r. destruct H as [A B C D]. split; auto. eapply hist_ext; [|exact A]; reflexivity.
Qed.

Lemma mgr_inv_new W gw f : step_inv W (mgr_new W gw f) [].
Proof. split; try reflexivity; try discriminate. split; [reflexivity|discriminate]. Qed.

Lemma mgr_run_inv W gw f es : let '(g, h) := mgr_run (mgr_new W gw f) es in step_inv W g h.
Proof.
  induction es as [|e es IH] using rev_ind; [apply mgr_inv_new|]. rewrite mgr_run_snoc.
  destruct (mgr_run (mgr_new W gw f) es) as [g1 h1]. pose proof (mgr_step_inv W g1 h1 e IH) as H.
  destruct (mgr_step g1 e) as [g2 h2]. exact H.
Qed.
