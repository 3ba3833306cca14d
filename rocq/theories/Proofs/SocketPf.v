(** Network connections of removed sessions. *)
From Coq Require Import NArith List Bool Lia ZArith ZifyBool ZifyNat ZifyN.
From Verif.Model Require Import Bytes Frame Service Control Alist Session Manager Sockets.
From Verif.Spec Require Import SessionSpec ManagerSpec SocketSpec.
From Verif.Proofs Require Import BytesFacts AlistFacts SessionProofs ManagerProofs ManagerPropsPf.
Import ListNotations.
Local Open Scope N_scope.

(** The loop ends only closed sessions. *)
Lemma loop_ends n : forall g r g' o sid code m s,
  poll_loop n g = (r, g', o) -> In (OMsg (EndOf sid code) m) o -> find_sess g sid = Some s -> s_closed s = true.
Proof.
  induction n as [|n IH]; intros g r g' o sid code m s H Hi Hs; cbn [poll_loop] in H; [injection H as <- <- <-; destruct Hi|].
  destruct (g_order g) as [|x rest] eqn:Eo; [eapply IH; eauto|].
  destruct (find_sess (set_order g rest) x) as [sx|] eqn:Ex; [|eapply IH; eauto; fail].
  destruct (sess_take (g_factory (set_order g rest)) sx) as [[[t s'] f'] o1] eqn:Et.
  change (find_sess (set_order g rest) x) with (find_sess g x) in Ex.
  assert (Hend : t = TkEnd \/ t = TkError -> s_closed sx = true).
  { intros Ht. unfold sess_take in Et. destruct (0 <? s_written sx); [injection Et as <- _ _ _; destruct Ht; discriminate|].
    cbv zeta in Et.
    match type of Et with match ?d with _ => _ end = _ => destruct d end; [|injection Et as <- _ _ _; destruct Ht; discriminate].
    match type of Et with (if s_closed ?z then _ else _) = _ => destruct (s_closed z) eqn:Ec; [|injection Et as <- _ _ _; destruct Ht; discriminate];
      assert (Q : s_closed z = s_closed sx) by (unfold wake_tr; ssimp; destruct (_ <? _); ssimp; try destruct (s_tr_waker sx); reflexivity) end.
    congruence. }
  destruct t.
  - injection H as <- <- <-. destruct Hi as [Hi|[Hi|[]]]; discriminate Hi.
  - injection H as <- <- <-. destruct Hi as [Hi|[Hi|[]]]; [discriminate Hi|]. injection Hi as -> _ _.
    assert (sx = s) by congruence. subst. auto.
  - injection H as <- <- <-. destruct Hi as [Hi|[Hi|[]]]; [discriminate Hi|]. injection Hi as -> _ _.
    assert (sx = s) by congruence. subst. auto.
  - destruct (poll_loop n _) as [[r2 g3] os] eqn:El in H. injection H as <- <- <-. destruct Hi as [Hi|Hi]; [discriminate Hi|].
    destruct (N.eq_dec sid x) as [->|Hne].
    + assert (sx = s) by congruence. subst sx. destruct (take_pending_fields _ _ _ _ _ Et) as (Ea & Eb & _).
      enough (s_closed s' = true) by congruence. eapply IH; [exact El|exact Hi|]. unfold find_sess, set_order, set_sess. gsimp. apply insert_same.
    + eapply IH; [exact El|exact Hi|]. unfold find_sess, set_order, set_sess in *. gsimp. now rewrite insert_other by exact Hne.
Qed.

Lemma loop_not_removed n : forall sid g r g1 o1, poll_loop n g = (r, g1, o1) -> In (ORemoved sid) o1 -> False.
Proof.
  induction n as [|n IH]; intros sid g r g1 o1 E Hi; cbn [poll_loop] in E; [injection E as <- <- <-; destruct Hi|].
  destruct (g_order g) as [|x rest]; [eapply IH; eauto|].
  destruct (find_sess (set_order g rest) x) as [sx|]; [|eapply IH; eauto].
  destruct (sess_take _ sx) as [[[t s'] f'] o2]. destruct t.
  - injection E as <- <- <-. destruct Hi as [Hi|[Hi|[]]]; discriminate Hi.
  - injection E as <- <- <-. destruct Hi as [Hi|[Hi|[]]]; discriminate Hi.
  - injection E as <- <- <-. destruct Hi as [Hi|[Hi|[]]]; discriminate Hi.
  - destruct (poll_loop n _) as [[r2 g3] os] eqn:El in E. injection E as <- <- <-. destruct Hi as [Hi|Hi]; [discriminate Hi|]. eapply IH; eauto.
Qed.

Definition left_ok (s : sess) : Prop := s_closed s = true /\ winv s.
Lemma left_step s t : left_ok s -> left_ok (fst (sess_step s (sev_of t))) /\ io (snd (sess_step s (sev_of t))) = false.
Proof.
  intros [C W]. split; [split; [|now apply step_winv]|].
  - destruct t; cbn [sev_of sess_step].
    + destruct (s_phase s); exact C.
    + destruct (s_phase s); try exact C. unfold sess_set_error. rewrite C. exact C.
    + unfold transport_poll. destruct (s_phase s); try exact C. ssimp. rewrite C. exact C.
    + destruct (s_wait_rd s); exact C.
    + destruct (s_wait_wr s); exact C.
  - destruct t; cbn [sev_of sess_step].
    + destruct (s_phase s); reflexivity.
    + destruct (s_phase s); reflexivity.
    + unfold transport_poll. destruct (s_phase s); try reflexivity. ssimp. rewrite C. reflexivity.
    + destruct (s_wait_rd s); reflexivity.
    + destruct (s_wait_wr s); reflexivity.
Qed.
Lemma left_scheduled s : left_ok s -> s_phase s = TRunning -> s_tr_run s = true.
Proof.
  intros [C [_ [_ T]]] P. destruct (s_tr_run s) eqn:E; [reflexivity|]. destruct (T P eq_refl) as (_ & X & _). congruence.
Qed.
Lemma left_polled s r w : left_ok s -> s_phase s = TRunning -> s_phase (fst (sess_step s (ETransport r w))) = TDone.
Proof. intros [C _] P. cbn [sess_step]. unfold transport_poll. rewrite P. ssimp. rewrite C. reflexivity. Qed.

Lemma set_nth_forall (P : sess -> Prop) s l : forall i, Forall P l -> P s -> Forall P (set_nth i s l).
Proof.
  induction l as [|x l IH]; intros i F H; [destruct i; constructor|]. inversion F; subst. destruct i; cbn [set_nth]; constructor; auto.
Qed.

Lemma set_nth_get s l : forall i j, nth_error (set_nth i s l) j = if Nat.eqb j i then match nth_error l i with Some _ => Some s | None => None end else nth_error l j.
Proof.
  induction l as [|x l IH]; intros i j.
  - destruct i, j; cbn [set_nth nth_error Nat.eqb]; try reflexivity. now destruct (Nat.eqb j i).
  - destruct i, j; cbn [set_nth nth_error Nat.eqb]; try reflexivity. apply IH.
Qed.
Lemma left_followed i es : forall n s, nth_error (n_left n) i = Some s ->
  nth_error (n_left (fst (net_run n es))) i = Some (fst (sess_run s (own_steps i es))).
Proof.
  induction es as [|e es IH]; intros n s Hs; [exact Hs|]. cbn [net_run]. destruct (net_step n e) as [n1 o1] eqn:E.
  assert (H1 : nth_error (n_left n1) i = Some (fst (sess_run s (own_steps i [e])))).
  { destruct e as [e|j t]; cbn [net_step] in E.
    - destruct (mgr_step (n_mgr n) e) as [g o]. injection E as <- _. cbn [n_left own_steps flat_map app sess_run fst].
      rewrite nth_error_app1; [exact Hs|]. apply nth_error_Some. congruence.
    - cbn [own_steps flat_map]. rewrite app_nil_r. destruct (nth_error (n_left n) j) as [s1|] eqn:Ej.
      + destruct (sess_step s1 (sev_of t)) as [s' o] eqn:Es. injection E as <- _. cbn [n_left]. rewrite set_nth_get, Ej.
        destruct (Nat.eqb_spec i j) as [->|Nij]; [|exact Hs]. rewrite Hs in Ej. injection Ej as ->. cbn [sess_run]. rewrite Es. reflexivity.
      + injection E as <- _. destruct (Nat.eqb_spec i j) as [->|Nij]; [congruence|exact Hs]. }
  specialize (IH n1 _ H1). destruct (net_run n1 es) as [n2 o2]. cbn [fst] in *. rewrite IH. f_equal.
  assert (A : forall a b x, fst (sess_run (fst (sess_run x a)) b) = fst (sess_run x (a ++ b))).
  { clear. induction a as [|y a IHa]; intros b x; [reflexivity|]. cbn [app sess_run]. destruct (sess_step x y) as [x1 p1]. specialize (IHa b x1).
    destruct (sess_run x1 a) as [x2 p2]. cbn [fst] in *. rewrite IHa. now destruct (sess_run x1 (a ++ b)). }
  rewrite A. unfold own_steps. now rewrite <- flat_map_app.
Qed.

Section Net.
  Variables (W : N) (gw : bool) (f : factory).
  Definition net_inv (n : net) : Prop :=
    (exists mes h, mgr_run (mgr_new W gw f) mes = (n_mgr n, h)) /\ Forall left_ok (n_left n).

  Lemma session_winv g sid s mes h : mgr_run (mgr_new W gw f) mes = (g, h) -> find_sess g sid = Some s -> winv s.
  Proof.
    intros H Hs. destruct (projection _ _ _ _ _ _ _ _ H Hs) as [svc E].
    pose proof (run_winv (sess_new svc sid W) (map fst (since_open sid h)) (winv_new _ _ _)) as X. now rewrite E in X.
  Qed.

  Lemma removed_only g e g' o sid : mgr_step g e = (g', o) -> In (ORemoved sid) o -> e = MClose sid.
  Proof.
    destruct e; cbn [mgr_step].
    - unfold mgr_connect. destruct (connect_inner g get svc sid0) as [[[? ?] ?]|]; [intros [= <- <-] [Hi|[]]; discriminate Hi|].
      destruct (create_hup g sid0 _). intros [= <- <-] [Hi|[]]; discriminate Hi.
    - unfold mgr_send. destruct (find_sess g (m_session m)) as [s|].
      + destruct (sess_step s _). intros [= <- <-] [Hi|[]]; discriminate Hi.
      + destruct (create_hup g _ _). intros [= <- <-] [Hi|[]]; discriminate Hi.
    - unfold mgr_close. destruct (find_sess g sid0); [|intros [= <- <-] []]. destruct (sess_step s EClose).
      intros [= <- <-] [Hi|[Hi|[]]]; [discriminate Hi|]. congruence.
    - unfold mgr_data_ack. destruct (find_sess g sid0) as [s|]; [|intros [= <- <-] []].
      destruct (sess_step s _). intros [= <- <-] [Hi|[]]; discriminate Hi.
    - unfold mgr_poll. destruct (g_queue g) as [|m q]; [|intros [= <- <-] [Hi|[]]; discriminate Hi].
      destruct (poll_loop (length (g_order g)) g) as [[r g1] o1] eqn:E. intros H Hi.
      assert (Hi1 : In (ORemoved sid) o1) by (destruct r; injection H as _ <-; exact Hi). clear H Hi. exfalso.
      exact (loop_not_removed _ _ _ _ _ _ E Hi1).
    - destruct (find_sess g sid0) as [s|]; [|intros [= <- <-] []]. destruct (sess_step s _). intros [= <- <-] [Hi|[]]; discriminate Hi.
    - intros [= <- <-] [].
  Qed.
  Lemma ended_only g e g' o sid code m : mgr_step g e = (g', o) -> In (OMsg (EndOf sid code) m) o ->
    e = MPoll /\ forall s, find_sess g sid = Some s -> s_closed s = true.
  Proof.
    destruct e; cbn [mgr_step].
    - unfold mgr_connect. destruct (connect_inner g get svc sid0) as [[[? ?] ?]|]; [intros [= <- <-] [Hi|[]]; discriminate Hi|].
      destruct (create_hup g sid0 _). intros [= <- <-] [Hi|[]]; discriminate Hi.
    - unfold mgr_send. destruct (find_sess g (m_session m0)) as [s|].
      + destruct (sess_step s _). intros [= <- <-] [Hi|[]]; discriminate Hi.
      + destruct (create_hup g _ _). intros [= <- <-] [Hi|[]]; discriminate Hi.
    - unfold mgr_close. destruct (find_sess g sid0); [|intros [= <- <-] []]. destruct (sess_step s EClose).
      intros [= <- <-] [Hi|[Hi|[]]]; discriminate Hi.
    - unfold mgr_data_ack. destruct (find_sess g sid0) as [s|]; [|intros [= <- <-] []].
      destruct (sess_step s _). intros [= <- <-] [Hi|[]]; discriminate Hi.
    - unfold mgr_poll. destruct (g_queue g) as [|m' q]; [|intros [= <- <-] [Hi|[]]; discriminate Hi].
      destruct (poll_loop (length (g_order g)) g) as [[r g1] o1] eqn:E. intros H Hi.
      assert (Hi1 : In (OMsg (EndOf sid code) m) o1) by (destruct r; injection H as _ <-; exact Hi).
      split; [reflexivity|]. intros s Hs. eapply loop_ends; eauto.
    - destruct (find_sess g sid0) as [s|]; [|intros [= <- <-] []]. destruct (sess_step s _). intros [= <- <-] [Hi|[]]; discriminate Hi.
    - intros [= <- <-] [].
  Qed.

  Lemma take_closed s f0 : s_closed s = true -> s_closed (fst (sess_step s (ETake f0))) = true.
  Proof.
    intros C. cbn [sess_step]. destruct (sess_take f0 s) as [[[t s'] f'] o] eqn:E. cbn [fst]. unfold sess_take in E.
    destruct (0 <? s_written s); [destruct (next_id f0); injection E as _ <- _ _; exact C|]. cbv zeta in E.
    match type of E with match ?d with _ => _ end = _ => destruct d end.
    - match type of E with (if s_closed ?z then _ else _) = _ =>
        assert (Q : s_closed z = true) by (unfold wake_tr; ssimp; destruct (_ <? _); ssimp; try destruct (s_tr_waker s); exact C) end.
      rewrite Q in E. match type of E with (if s_error ?z then _ else _) = _ => destruct (s_error z) end; injection E as _ <- _ _; (reflexivity || exact Q).
    - injection E as _ <- _ _. unfold wake_tr. ssimp. destruct (_ <? _); ssimp; try destruct (s_tr_waker s); exact C.
  Qed.
  Lemma close_closed s : s_closed (fst (sess_step s EClose)) = true.
  Proof. cbn [sess_step fst]. unfold sess_close, wake_mgr, wake_tr. ssimp. destruct (s_tr_waker s); ssimp; destruct (s_mgr_waker s); reflexivity. Qed.

  Lemma abandoned_ok g e g' o mes h : mgr_run (mgr_new W gw f) mes = (g, h) -> mgr_step g e = (g', o) -> Forall left_ok (abandoned g e o).
  Proof.
    intros R H. apply Forall_forall. intros x Hx. unfold abandoned in Hx. apply in_flat_map in Hx as (y & Hy & Hx).
    assert (K : forall sid s, find_sess g sid = Some s -> x = left_state e s -> (e = MClose sid \/ (e = MPoll /\ s_closed s = true)) -> left_ok x).
    { intros sid s Hs -> [->|[-> C]]; cbn [left_state]; (split; [|apply step_winv; eapply session_winv; eauto]).
      - apply close_closed.
      - now apply take_closed. }
    destruct y as [| |sid| |[| |sid code] m]; try destruct Hx.
    - destruct (find_sess g sid) as [s|] eqn:Es; [|destruct Hx]. destruct Hx as [<-|[]]. eapply K; [exact Es|reflexivity|].
      left. eapply removed_only; eauto.
    - destruct (find_sess g sid) as [s|] eqn:Es; [|destruct Hx]. destruct Hx as [<-|[]]. eapply K; [exact Es|reflexivity|].
      right. destruct (ended_only _ _ _ _ _ _ _ H Hy) as [A B]. split; [exact A|]. now apply B.
  Qed.

  Lemma net_step_inv n e : net_inv n -> net_inv (fst (net_step n e)).
  Proof.
    intros [(mes & h & R) L]. destruct e as [e|i t]; cbn [net_step].
    - destruct (mgr_step (n_mgr n) e) as [g o] eqn:E. cbn [fst]. split.
      + exists (mes ++ [e]), (h ++ o). cbn [n_mgr]. rewrite mgr_run_snoc, R, E. reflexivity.
      + cbn [n_left]. apply Forall_app. split; [exact L|]. eapply abandoned_ok; eauto.
    - destruct (nth_error (n_left n) i) as [s|] eqn:E; [|split; eauto]. destruct (sess_step s (sev_of t)) as [s' o] eqn:Es.
      split; [eauto|]. cbn [fst n_left]. apply set_nth_forall; [exact L|]. rewrite Forall_forall in L.
      destruct (left_step s t (L s (nth_error_In _ _ E))) as [X _]. now rewrite Es in X.
  Qed.
  Lemma net_run_inv es : forall n, net_inv n -> net_inv (fst (net_run n es)).
  Proof.
    induction es as [|e es IH]; intros n I; [exact I|]. cbn [net_run]. pose proof (net_step_inv n e I) as I1.
    destruct (net_step n e) as [n1 o1]. specialize (IH n1 I1). destruct (net_run n1 es). exact IH.
  Qed.
  Lemma net_new_inv : net_inv (net_new W gw f).
  Proof. split; [exists [], []; reflexivity|constructor]. Qed.

  Lemma no_io es : forall n, net_inv n -> forall i t o, In (NAbandoned i t o) (snd (net_run n es)) -> io o = false.
  Proof.
    induction es as [|e es IH]; intros n I i t o; cbn [net_run]; [intros []|]. pose proof (net_step_inv n e I) as I1.
    destruct (net_step n e) as [n1 o1] eqn:E. specialize (IH n1 I1 i t o). destruct (net_run n1 es) as [n2 o2]. cbn [snd] in *.
    intros Hi. apply in_app_or in Hi as [Hi|Hi]; [|auto]. destruct e as [e|j t']; cbn [net_step] in E.
    - destruct (mgr_step (n_mgr n) e) as [g o']. injection E as _ <-. apply in_map_iff in Hi as (x & X & _). discriminate X.
    - destruct (nth_error (n_left n) j) as [s|] eqn:Ej; [|injection E as _ <-; destruct Hi].
      destruct (sess_step s (sev_of t')) as [s' o'] eqn:Es. injection E as _ <-. destruct Hi as [Hi|[]]. injection Hi as <- <- <-.
      destruct I as [_ L]. rewrite Forall_forall in L. destruct (left_step s t' (L s (nth_error_In _ _ Ej))) as [_ X]. now rewrite Es in X.
  Qed.

  Theorem left_connections es n h : net_run (net_new W gw f) es = (n, h) ->
    (forall s, In s (n_left n) -> s_phase s = TRunning ->
       s_tr_run s = true /\ forall r w, s_phase (fst (sess_step s (ETransport r w))) = TDone) /\
    (forall i t o, In (NAbandoned i t o) h -> io o = false).
  Proof.
    intros H. split.
    - intros s Hs P. pose proof (net_run_inv es _ net_new_inv) as [_ L]. rewrite H in L. cbn [fst] in L.
      rewrite Forall_forall in L. specialize (L s Hs). split; [now apply left_scheduled|]. intros r w. now apply left_polled.
    - intros i t o Hi. eapply (no_io es _ net_new_inv). rewrite H. exact Hi.
  Qed.
End Net.

(** ** A server that opens and closes *)
Section Rounds.
  Variables (W : N) (gw : bool) (f : factory) (get : N -> option service) (svc sid : N) (s : service) (a : saddr).
  Hypothesis Hget : get svc = Some s.
  Hypothesis Haddr : s_addr s = Some a.
  Hypothesis Hperm : gw = true \/ is_loopback (sa_ip a) = true.
  Definition round : list nev := [NMgr (MConnect get svc sid); NMgr (MClose sid); NMgr MPoll].
  Definition idle : mgr :=
    {| g_window := W; g_gateway := gw; g_factory := f; g_queue := []; g_sessions := []; g_order := []; g_task := true; g_run := false |}.
  Definition orphan : sess := sess_close (with_mgr (sess_new svc sid W) false true).

  Lemma one_round g left : g = mgr_new W gw f \/ g = idle ->
    fst (net_run {| n_mgr := g; n_left := left |} round) = {| n_mgr := idle; n_left := left ++ [orphan] |} /\
    at_most 1 {| n_mgr := g; n_left := left |} round.
  Proof using Hget Haddr Hperm.
    intros Hg.
    assert (Hc : connect_inner g get svc sid = Some (s_type s, match s_mac s with Some m => m | None => 0 end, a)).
    { assert (Hf : find_sess g sid = None) by (destruct Hg as [-> | ->]; reflexivity).
      assert (Hw : g_gateway g = gw) by (destruct Hg as [-> | ->]; reflexivity).
      unfold connect_inner. rewrite Hf, Hget, Haddr, Hw. destruct Hperm as [-> | ->]; [reflexivity|]. now rewrite andb_false_r. }
    assert (Hm : mgr_connect g get svc sid =
      ({| g_window := W; g_gateway := gw; g_factory := f; g_queue := []; g_sessions := [(sid, with_mgr (sess_new svc sid W) false true)];
          g_order := [sid]; g_task := false; g_run := true |}, [OOpen sid (s_type s) (match s_mac s with Some m => m | None => 0 end) a])).
    { unfold mgr_connect. rewrite Hc. destruct Hg as [-> | ->]; reflexivity. }
    assert (Hn : length (g_sessions g) = 0%nat) by (destruct Hg as [-> | ->]; reflexivity).
    unfold round. cbn [net_run net_step n_mgr n_left mgr_step at_most fst]. rewrite Hm. cbn [n_mgr n_left].
    unfold mgr_close, find_sess. cbn [g_sessions alookup]. rewrite N.eqb_refl. cbn [sess_step]. cbn [n_mgr n_left].
    unfold set_sessions. cbn [g_window g_gateway g_factory g_queue g_sessions g_order g_task g_run].
    assert (Hr : forall x : sess, aremove sid [(sid, x)] = []) by (intros x; unfold aremove; cbn [filter fst]; now rewrite N.eqb_refl).
    rewrite Hr. unfold mgr_poll. cbn [g_queue g_order length poll_loop set_order g_sessions]. unfold find_sess. cbn [g_sessions set_order alookup].
    cbn [abandoned flat_map find_sess g_sessions alookup app fst n_mgr n_left]. rewrite N.eqb_refl.
    cbn [app fst n_mgr n_left left_state sess_step]. rewrite !app_nil_r. split.
    - reflexivity.
    - unfold session_count. cbn [n_mgr]. rewrite Hn. repeat split; cbn; rewrite ?N.eqb_refl; cbn; auto.
  Qed.

  Lemma at_most_app k es1 : forall n es2, at_most k n es1 -> at_most k (fst (net_run n es1)) es2 -> at_most k n (es1 ++ es2).
  Proof.
    clear. induction es1 as [|e es1 IH]; intros n es2 A B; cbn [app at_most net_run] in *; [exact B|]. destruct A as [A1 A2]. split; [exact A1|].
    destruct (net_step n e) as [n1 o1]. cbn [fst] in *. apply IH; [exact A2|]. destruct (net_run n1 es1). exact B.
  Qed.
  Lemma net_run_app es1 : forall n es2, fst (net_run n (es1 ++ es2)) = fst (net_run (fst (net_run n es1)) es2).
  Proof.
    clear. induction es1 as [|e es1 IH]; intros n es2; cbn [app net_run]; [reflexivity|].
    destruct (net_step n e) as [n1 o1]. specialize (IH n1 es2). destruct (net_run n1 (es1 ++ es2)), (net_run n1 es1). exact IH.
  Qed.

  Lemma rounds k : forall g left, g = mgr_new W gw f \/ g = idle ->
    exists g', fst (net_run {| n_mgr := g; n_left := left |} (concat (repeat round k))) = {| n_mgr := g'; n_left := left ++ repeat orphan k |} /\
      (g' = mgr_new W gw f \/ g' = idle) /\ at_most 1 {| n_mgr := g; n_left := left |} (concat (repeat round k)).
  Proof using Hget Haddr Hperm.
    induction k as [|k IH]; intros g left Hg.
    - exists g. cbn [repeat concat net_run fst at_most]. rewrite app_nil_r. split; [reflexivity|]. split; [exact Hg|].
      unfold session_count. destruct Hg as [-> | ->]; cbn; lia.
    - destruct (one_round g left Hg) as [E A]. cbn [repeat concat]. rewrite net_run_app, E.
      destruct (IH idle (left ++ [orphan]) (or_intror eq_refl)) as (g' & E' & Hg' & A'). exists g'. rewrite E'.
      split; [now rewrite <- app_assoc|]. split; [exact Hg'|]. apply at_most_app; [exact A|]. rewrite E. exact A'.
  Qed.

  Lemma unbounded k : exists es n h,
    net_run (net_new W gw f) es = (n, h) /\ at_most 1 (net_new W gw f) es /\ connection_count n = k /\ session_count n = 0%nat.
  Proof using Hget Haddr Hperm sid.
    destruct (rounds k (mgr_new W gw f) [] (or_introl eq_refl)) as (g' & E & Hg & A).
    exists (concat (repeat round k)). change (net_new W gw f) with {| n_mgr := mgr_new W gw f; n_left := [] |}.
    destruct (net_run _ _) as [n h] eqn:R in *. cbn [fst] in E. exists n, h. split; [reflexivity|]. split; [exact A|]. subst n.
    unfold connection_count, session_count. cbn [n_mgr n_left app].
    assert (X : g_sessions g' = []) by (destruct Hg as [-> | ->]; reflexivity). rewrite X. split; [|reflexivity]. cbn [map app].
    clear. induction k as [|k IH]; [reflexivity|]. cbn [repeat filter]. change (in_use orphan) with true. cbn [length]. now rewrite IH.
  Qed.

  Definition opening (k : nat) : list nev := map (fun i => NMgr (MConnect get svc (N.of_nat i))) (seq 0 k).
  Lemma insert_new (x : sess) l : forall i, alookup i l = None -> length (ainsert i x l) = S (length l).
  Proof.
    clear. induction l as [|[j y] l IH]; intros i H; cbn [ainsert alookup] in *; [reflexivity|].
    destruct (N.eqb_spec i j); [discriminate|]. cbn [length]. now rewrite IH.
  Qed.
  Lemma opened k : exists n h, net_run (net_new W gw f) (opening k) = (n, h) /\ session_count n = k /\
    g_gateway (n_mgr n) = gw /\ forall i, (k <= i)%nat -> find_sess (n_mgr n) (N.of_nat i) = None.
  Proof using Hget Haddr Hperm.
    induction k as [|k (n & h & R & C & G & F)].
    - exists (net_new W gw f), []. repeat split.
    - unfold opening. rewrite seq_S, map_app. cbn [Nat.add map].
      assert (Hc : connect_inner (n_mgr n) get svc (N.of_nat k) = Some (s_type s, match s_mac s with Some m => m | None => 0 end, a)).
      { unfold connect_inner. rewrite (F k (le_n k)), Hget, Haddr, G. destruct Hperm as [-> | ->]; [reflexivity|]. now rewrite andb_false_r. }
      destruct (net_run (net_new W gw f) (opening k ++ [NMgr (MConnect get svc (N.of_nat k))])) as [n2 h2] eqn:R2.
      exists n2, h2. split; [exact R2|]. pose proof (net_run_app (opening k) (net_new W gw f) [NMgr (MConnect get svc (N.of_nat k))]) as X.
      rewrite R2, R in X. cbn [fst net_run net_step mgr_step] in X. unfold mgr_connect in X. rewrite Hc in X. cbn [fst] in X. subst n2.
      unfold session_count in *. cbn [n_mgr] in *. unfold set_sess, set_sessions, wake_task, find_sess in *. 
      pose proof (F k (le_n k)) as Fk. 
      split; [|split].
      + cbn [g_task set_order]. destruct (g_task (n_mgr n)); cbn [g_sessions set_task set_order]; rewrite insert_new by exact Fk; now rewrite C.
      + cbn [g_task set_order]. destruct (g_task (n_mgr n)); exact G.
      + intros i Hi. cbn [g_task set_order].
        destruct (g_task (n_mgr n)); cbn [g_sessions set_task set_order]; rewrite insert_other by lia; apply F; lia.
  Qed.
End Rounds.
