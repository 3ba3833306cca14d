(** More session-manager properties: reasons of ends, permitted connections, isolation, wake-ups. *)
From Coq Require Import NArith List Bool Lia ZArith ZifyBool ZifyNat ZifyN.
From Verif.Model Require Import Bytes Frame Service Control Alist Session Manager.
From Verif.Spec Require Import SessionSpec ManagerSpec.
From Verif.Proofs Require Import BytesFacts AlistFacts SessionProofs SessionPropsPf ManagerProofs ManagerPropsPf.
Import ListNotations.
Local Open Scope N_scope.
Ltac Zify.zify_post_hook ::= Z.div_mod_to_equations.

(** ** Why a session ended *)
Lemma error_wake_mgr s : s_error (wake_mgr s) = s_error s.
Proof. apply wake_mgr_fields. Qed.
Lemma error_wake_tr s : s_error (wake_tr s) = s_error s.
Proof. apply wake_tr_fields. Qed.
Lemma error_close s : s_error (sess_close s) = s_error s.
Proof. unfold sess_close. now rewrite error_wake_mgr, error_wake_tr. Qed.
Lemma error_set s : s_closed s = false -> s_error (sess_set_error s) = true.
Proof. intros H. unfold sess_set_error. rewrite H, error_close. reflexivity. Qed.
Lemma set_closed s : s_closed s = true -> sess_set_error s = s.
Proof. intros H. unfold sess_set_error. now rewrite H. Qed.

(** How the closed and error flags move. *)
Definition flags_ok (s : sess) (e : sev) (s' : sess) : Prop :=
  (s_closed s' = true -> s_error s' = false -> (s_closed s = true /\ s_error s = false) \/ is_eof e) /\
  (s_error s' = true -> s_error s = true \/ failure s e).

Lemma flags_same s e s' : s_closed s' = s_closed s -> s_error s' = s_error s -> flags_ok s e s'.
Proof. intros A B. unfold flags_ok. rewrite A, B. auto. Qed.

Lemma flags_set s e x :
  s_closed x = s_closed s -> s_error x = s_error s -> failure s e -> flags_ok s e (sess_set_error x).
Proof.
  intros A B F. split; [|auto]. destruct (s_closed s) eqn:E.
  - rewrite set_closed by exact A. rewrite A, B. auto.
  - rewrite error_set by exact A. discriminate.
Qed.

Lemma step_flags s e :
  e <> EClose -> (forall f, e = ETake f -> fst (fst (fst (sess_take f s))) <> TkError) ->
  flags_ok s e (fst (sess_step s e)).
Proof.
  intros Hc Ht. destruct e as [n|p|f| | | |r w| |]; cbn [sess_step].
  - apply flags_same; cbn [fst]; unfold sess_data_ack; [rewrite closed_wake_mgr|rewrite error_wake_mgr]; reflexivity.
  - unfold sess_push. destruct (s_closed s) eqn:Ec; [apply flags_same; reflexivity|].
    destruct (N.ltb_spec (s_outcap s) (nlen p)) as [Hl|Hl].
    + apply flags_set; auto.
    + cbv zeta. cbn [fst]. set (x := with_output _ _).
      assert (G : s_closed (match s_output x with [] => x | _ => wake_tr x end) = s_closed s /\
                  s_error (match s_output x with [] => x | _ => wake_tr x end) = s_error s).
      { destruct (s_output x); [now split|]. rewrite closed_wake_tr, error_wake_tr. now split. }
      apply flags_same; apply G.
  - specialize (Ht f eq_refl). unfold sess_take in *. destruct (N.ltb 0 (s_written s)); [cbn [next_id fst]; apply flags_same; reflexivity|].
    cbv zeta in *. set (s2 := with_input _ _) in *.
    set (s3 := if N.ltb (nlen (s_input s2)) BUFFER_CAPACITY then wake_tr s2 else s2) in *.
    assert (E : s_closed s3 = s_closed s /\ s_error s3 = s_error s).
    { unfold s3. destruct (N.ltb _ _); [rewrite closed_wake_tr, error_wake_tr|]; now split. }
    destruct E as [E1 E2].
    destruct (firstn _ _); [|cbn [fst]; now apply flags_same].
    destruct (s_closed s3) eqn:Ec3.
    + destruct (s_error s3) eqn:Ee3; cbn [fst] in *; [now destruct Ht|]. apply flags_same; congruence.
    + cbn [fst]. apply flags_same; ssimp; congruence.
  - now destruct Hc.
  - destruct (s_phase s); apply flags_same; reflexivity.
  - destruct (s_phase s); try (apply flags_same; reflexivity). cbn [fst].
    destruct (flags_set s EConnectFailed s eq_refl eq_refl I) as [A B]. split; ssimp; auto.
  - unfold transport_poll. destruct (s_phase s); try (apply flags_same; reflexivity). cbv zeta.
    set (s0 := with_tr s (s_tr_waker s) false). destruct (s_closed s0) eqn:Ec0; [apply flags_same; reflexivity|].
    assert (H1 : let '(_, x, _) := poll_read_input s0 r in flags_ok s (ETransport r w) x /\ (s_closed x = true -> s_error x = s_error s \/ failure s (ETransport r w))).
    { unfold poll_read_input. rewrite Ec0. destruct (N.leb _ _); [split; [apply flags_same; reflexivity|now left]|].
      destruct r as [|[|b0 b]|].
      - split; [apply flags_same; reflexivity|now left].
      - cbv zeta. set (y := sess_close _).
        assert (Ey : s_error y = s_error s) by (unfold y; rewrite error_close; reflexivity).
        assert (G : s_error (match s_input y with [] => y | _ => wake_mgr y end) = s_error s).
        { destruct (s_input y); [exact Ey|]. now rewrite error_wake_mgr. }
        split; [|intros _; left; exact G]. split; [intros _ _; right; now exists w|]. rewrite G. auto.
      - cbv zeta. set (y := with_input _ _).
        assert (G : s_closed (match s_input y with [] => y | _ => wake_mgr y end) = s_closed s /\
                    s_error (match s_input y with [] => y | _ => wake_mgr y end) = s_error s).
        { destruct (s_input y); [now split|]. rewrite closed_wake_mgr, error_wake_mgr. now split. }
        split; [apply flags_same; apply G|intros _; left; apply G].
      - cbv zeta. set (y := sess_set_error _).
        assert (Ey : s_error y = true) by (unfold y; apply error_set; exact Ec0).
        assert (G : s_error (match s_input y with [] => y | _ => wake_mgr y end) = true).
        { destruct (s_input y); [exact Ey|]. now rewrite error_wake_mgr. }
        split; [|intros _; right; exact I]. split; [rewrite G; discriminate|intros _; right; exact I]. }
    destruct (poll_read_input s0 r) as [[rr s1] o1]. destruct H1 as [H1 H1'].
    assert (H2 : let '(_, x, _) := poll_write_output s1 w in flags_ok s (ETransport r w) x).
    { unfold poll_write_output. destruct (s_output s1) as [|b0 b]; [destruct (s_closed s1); exact H1|].
      destruct w as [|k|].
      - exact H1.
      - cbv zeta. destruct H1 as [A B]. split; rewrite ?closed_wake_mgr, ?error_wake_mgr; [exact A|exact B].
      - set (y := with_wait s1 (s_wait_rd s1) false). destruct H1 as [A B]. destruct (s_closed s1) eqn:Ec1.
        + rewrite set_closed by exact Ec1. split; [unfold y; ssimp; try rewrite Ec1; exact A|exact B].
        + split; [rewrite error_set by exact Ec1; discriminate|]. intros _. right. cbn [failure]. now destruct r. }
    destruct (poll_write_output s1 w) as [[rw s2] o2]. cbn [fst]. destruct (rr || rw); exact H2.
  - destruct (s_wait_rd s); apply flags_same; reflexivity.
  - destruct (s_wait_wr s); apply flags_same; reflexivity.
Qed.

(** Reason of a closed session: an end of file, or a failure if its error flag is set. *)
Definition reason (s : sess) (h : list (sev * list sobs)) (svc sid W : N) : Prop :=
  (s_closed s = true -> s_error s = false -> exists e, In e (map fst h) /\ is_eof e) /\
  (s_error s = true -> exists es1 e es2, map fst h = es1 ++ e :: es2 /\ failure (fst (sess_run (sess_new svc sid W) es1)) e).

Definition reasons (W : N) (g : mgr) (h : list mobs) : Prop :=
  forall sid s, find_sess g sid = Some s ->
  exists svc, sess_run (sess_new svc sid W) (map fst (since_open sid h)) = (s, concat (map snd (since_open sid h))) /\
              reason s (since_open sid h) svc sid W.

Lemma reasons_ext W g g' h : g_sessions g' = g_sessions g -> reasons W g h -> reasons W g' h.
Proof. intros E H sid s. unfold find_sess. rewrite E. apply H. Qed.

Lemma reasons_take W g h sid s e :
  reasons W g h -> find_sess g sid = Some s ->
  e <> EClose -> (forall f, e = ETake f -> fst (fst (fst (sess_take f s))) <> TkError) ->
  let '(s', o) := sess_step s e in reasons W (set_sess g sid s') (h ++ [OSess sid e o]).
Proof.
  intros H Hs Hc Ht. pose proof (step_flags s e Hc Ht) as F. destruct (sess_step s e) as [s' o] eqn:Es. cbn [fst] in F.
  intros k t. unfold find_sess. gsimp. rewrite alookup_insert, since_app. cbn [since_step]. rewrite (N.eqb_sym sid k).
  destruct (N.eqb_spec k sid) as [->|Hk]; [|apply H]. intros [= <-].
  destruct (H sid s Hs) as (svc & Hrun & R1 & R2). exists svc.
  rewrite map_app, map_app, concat_app. cbn [map fst snd concat]. rewrite sess_run_snoc, Hrun, Es, app_nil_r.
  split; [reflexivity|]. destruct F as [F1 F2]. unfold reason. rewrite map_app. cbn [map fst]. split.
  - intros A B. destruct (F1 A B) as [[C D]|C].
    + destruct (R1 C D) as (x & X1 & X2). exists x. split; [apply in_or_app; now left|exact X2].
    + exists e. split; [apply in_or_app; right; now left|exact C].
  - intros A. destruct (F2 A) as [C|C].
    + destruct (R2 C) as (es1 & x & es2 & X1 & X2). exists es1, x, (es2 ++ [e]). rewrite X1, <- app_assoc. now split.
    + exists (map fst (since_open sid h)), e, []. split; [reflexivity|]. now rewrite Hrun.
Qed.

Lemma reasons_quiet W g h x :
  reasons W g h -> (match x with OOpen _ _ _ _ | OSess _ _ _ => False | _ => True end) -> reasons W g (h ++ [x]).
Proof. intros H Hx sid s Hs. rewrite since_app. destruct x; try contradiction; cbn [since_step]; now apply H. Qed.

Lemma reasons_remove W g g' h h' sid :
  reasons W g h -> g_sessions g' = aremove sid (g_sessions g) ->
  (forall k, k <> sid -> since_open k h' = since_open k h) -> reasons W g' h'.
Proof.
  intros H E Hh k s. unfold find_sess. rewrite E, alookup_remove. destruct (N.eqb_spec k sid) as [|Hk]; [discriminate|].
  intros Hs. rewrite (Hh k Hk). now apply H.
Qed.

Lemma since_other k sid h e o : k <> sid -> since_open k (h ++ [OSess sid e o]) = since_open k h.
Proof. intros H. rewrite since_app. cbn [since_step]. rewrite N.eqb_sym. apply N.eqb_neq in H. now rewrite H. Qed.

Lemma poll_loop_reasons W n : forall g h,
  reasons W g h -> let '(_, g', o) := poll_loop n g in reasons W g' (h ++ o).
Proof.
  induction n as [|n IH]; intros g h H; cbn [poll_loop]; [now rewrite app_nil_r|].
  destruct (g_order g) as [|sid rest] eqn:Eo; [apply IH, H|].
  cbv zeta. set (g0 := set_order g rest).
  assert (H0 : reasons W g0 h) by (eapply reasons_ext; [|exact H]; reflexivity).
  destruct (find_sess g0 sid) as [s|] eqn:Es; [|apply IH, H0].
  pose proof (reasons_take W g0 h sid s (ETake (g_factory g0)) H0 Es ltac:(discriminate)) as H1. rewrite take_step in H1.
  destruct (sess_take (g_factory g0) s) as [[[t s'] f'] o] eqn:Et. cbn [fst snd] in H1.
  destruct t as [m| | |].
  - rewrite snoc2. apply reasons_quiet; [|exact I]. eapply reasons_ext; [|apply H1; intros f1 Hf1; assert (X : f1 = g_factory g0) by congruence; rewrite X, Et; discriminate]. reflexivity.
  - unfold create_hup. cbn [next_id]. eapply reasons_remove; [exact H0|reflexivity|].
    intros k Hk. rewrite snoc2, since_app. cbn [since_step]. now apply since_other.
  - unfold create_hup. cbn [next_id]. eapply reasons_remove; [exact H0|reflexivity|].
    intros k Hk. rewrite snoc2, since_app. cbn [since_step]. now apply since_other.
  - set (g2 := set_order (set_sess _ _ _) _). specialize (IH g2 (h ++ [OSess sid (ETake (g_factory g0)) o])).
    assert (H2 : reasons W g2 (h ++ [OSess sid (ETake (g_factory g0)) o])).
    { eapply reasons_ext; [|apply H1; intros f1 Hf1; assert (X : f1 = g_factory g0) by congruence; rewrite X, Et; discriminate]. reflexivity. }
    specialize (IH H2). destruct (poll_loop n g2) as [[r g3] os]. now rewrite <- app_assoc in IH.
Qed.

Lemma mgr_step_reasons W g h e :
  step_inv W g h -> reasons W g h -> let '(g', o) := mgr_step g e in reasons W g' (h ++ o).
Proof.
  intros Hi H.
  assert (Hq : forall sid c, let '(m, g1) := create_hup g sid c in reasons W (wake_task (set_queue g1 (g_queue g1 ++ [m]))) (h ++ [OQueued m])).
  { intros sid c. unfold create_hup. cbn [next_id]. apply reasons_quiet; [|exact I]. eapply reasons_ext; [|exact H].
    match goal with |- context [wake_task ?x] => destruct (wake_task_fields x) as (_ & _ & _ & _ & -> & _) end. reflexivity. }
  destruct e as [get svc sid|m|sid|sid len| |sid t|ids]; cbn [mgr_step].
  - unfold mgr_connect. destruct (connect_inner g get svc sid) as [[[t mac] a]|] eqn:Ec; [|apply (Hq sid EC_CONNECTION_ERROR)].
    cbv zeta. set (g2 := wake_task _).
    destruct (wake_task_fields (set_order g (g_order g ++ [sid]))) as (E1 & E2 & E3 & E4 & E5 & E6). fold g2 in E1, E2, E3, E4, E5, E6. gsimp.
    destruct Hi as [A B C D].
    assert (Er : g_run g2 = true) by (apply wake_task_run; exact C). rewrite Er, D.
    change (with_mgr (sess_new svc sid W) (s_mgr_waker (sess_new svc sid W)) true) with (sess_new svc sid W).
    intros k s. unfold find_sess. gsimp. rewrite alookup_insert, since_app, E5. cbn [since_step]. rewrite (N.eqb_sym sid k).
    destruct (N.eqb_spec k sid) as [->|Hk]; [|apply H]. intros [= <-]. exists svc. split; [reflexivity|].
    split; cbn; intros; discriminate.
  - unfold mgr_send. cbv zeta. destruct (find_sess g (m_session m)) as [s|] eqn:Es; [|apply (Hq _ EC_CONNECTION_ERROR)].
    pose proof (reasons_take W g h _ s (EPush (m_payload m)) H Es ltac:(discriminate) ltac:(discriminate)) as Hp.
    destruct (sess_step s (EPush (m_payload m))) as [s' o]. exact Hp.
  - unfold mgr_close. destruct (find_sess g sid) as [s|] eqn:Es; [|now rewrite app_nil_r].
    destruct (sess_step s EClose) as [s' o]. eapply reasons_remove; [exact H|reflexivity|].
    intros k Hk. rewrite snoc2, since_app. cbn [since_step]. now apply since_other.
  - unfold mgr_data_ack. destruct (find_sess g sid) as [s|] eqn:Es; [|now rewrite app_nil_r].
    pose proof (reasons_take W g h _ s (EDataAck len) H Es ltac:(discriminate) ltac:(discriminate)) as Hp.
    destruct (sess_step s (EDataAck len)) as [s' o]. exact Hp.
  - unfold mgr_poll. destruct (g_queue g) as [|m q] eqn:Eq.
    + pose proof (poll_loop_reasons W (length (g_order g)) g h H) as H1.
      destruct (poll_loop (length (g_order g)) g) as [[[] g1] o]; (eapply reasons_ext; [|exact H1]; reflexivity).
    + apply reasons_quiet; [|exact I]. eapply reasons_ext; [|exact H]; reflexivity.
  - destruct (find_sess g sid) as [s|] eqn:Es; [|now rewrite app_nil_r].
    pose proof (reasons_take W g h _ s (sev_of t) H Es ltac:(destruct t; discriminate) ltac:(destruct t; discriminate)) as Hp.
    destruct (sess_step s (sev_of t)) as [s' o]. exact Hp.
  - rewrite app_nil_r. eapply reasons_ext; [|exact H]; reflexivity.
Qed.

Lemma mgr_run_reasons W gw f es : let '(g, h) := mgr_run (mgr_new W gw f) es in reasons W g h.
Proof.
  induction es as [|e es IH] using rev_ind; [discriminate|]. rewrite mgr_run_snoc.
  pose proof (mgr_run_inv W gw f es) as Hi.
  destruct (mgr_run (mgr_new W gw f) es) as [g1 h1]. pose proof (mgr_step_reasons W g1 h1 e Hi IH) as H.
  destruct (mgr_step g1 e) as [g2 h2]. exact H.
Qed.

(** The final message of a session and its code. *)
Lemma take_end_flags f s :
  (fst (fst (fst (sess_take f s))) = TkEnd -> s_closed s = true /\ s_error s = false /\ s_written s = 0) /\
  (fst (fst (fst (sess_take f s))) = TkError -> s_closed s = true /\ s_error s = true /\ s_written s = 0).
Proof.
  unfold sess_take. destruct (N.ltb_spec 0 (s_written s)) as [Hw|Hw]; [cbn [next_id fst]; split; discriminate|].
  cbv zeta. set (s2 := with_input _ _).
  set (s3 := if N.ltb (nlen (s_input s2)) BUFFER_CAPACITY then wake_tr s2 else s2).
  assert (E : s_closed s3 = s_closed s /\ s_error s3 = s_error s).
  { unfold s3. destruct (N.ltb _ _); [rewrite closed_wake_tr, error_wake_tr|]; now split. }
  destruct E as [E1 E2]. destruct (firstn _ _); [|cbn [fst]; split; discriminate].
  rewrite <- E1, <- E2.
  destruct (s_closed s3); [destruct (s_error s3)|]; cbn [fst]; split; intros; try discriminate; repeat split; lia.
Qed.

Definition end_shape (g : mgr) (sid c : N) (m : amsg) : Prop :=
  exists s id, find_sess g sid = Some s /\ s_closed s = true /\ c = (if s_error s then EC_CONNECTION_ERROR else EC_NO_ERROR) /\
    m = amsg_of_cmsg (mk_hup id sid c).

Lemma poll_loop_end n : forall g sid c m,
  let '(_, _, o) := poll_loop n g in In (OMsg (EndOf sid c) m) o -> end_shape g sid c m.
Proof.
  induction n as [|n IH]; intros g sid c m; cbn [poll_loop]; [intros []|].
  destruct (g_order g) as [|x rest] eqn:Eo; [apply IH|].
  cbv zeta. set (g0 := set_order g rest). change (find_sess g0 x) with (find_sess g x).
  destruct (find_sess g x) as [s|] eqn:Es; [|apply (IH g0)].
  pose proof (take_end_flags (g_factory g0) s) as Hf.
  destruct (sess_take (g_factory g0) s) as [[[t s'] f'] o] eqn:Et. cbn [fst] in Hf. destruct Hf as [Hf1 Hf2].
  destruct t as [m0| | |].
  - intros [H|[H|[]]]; discriminate.
  - unfold create_hup. cbn [next_id]. intros [H|[H|[]]]; [discriminate|]. injection H as <- <- <-.
    destruct (Hf2 eq_refl) as (A & B & _). exists s. eexists. rewrite B. repeat split; eauto.
  - unfold create_hup. cbn [next_id]. intros [H|[H|[]]]; [discriminate|]. injection H as <- <- <-.
    destruct (Hf1 eq_refl) as (A & B & _). exists s. eexists. rewrite B. repeat split; eauto.
  - set (g2 := set_order (set_sess _ _ _) _). specialize (IH g2 sid c m). destruct (poll_loop n g2) as [[r g3] os].
    intros [H|H]; [discriminate|]. destruct (IH H) as (s1 & id & A & B & C & D).
    unfold g2, find_sess in A. gsimp. rewrite alookup_insert in A. destruct (N.eqb_spec sid x) as [->|Hx].
    + injection A as <-. apply take_pending_fields in Et as (E1 & E2 & _). congruence.
    + exists s1, id. repeat split; auto.
Qed.

Lemma ends_correct W gw f es g h e g' o sid c m :
  mgr_run (mgr_new W gw f) es = (g, h) -> mgr_step g e = (g', o) -> In (OMsg (EndOf sid c) m) o ->
  exists svc id, m = amsg_of_cmsg (mk_hup id sid c) /\ find_sess g' sid = None /\
    (c = EC_NO_ERROR /\ (exists x, In x (map fst (since_open sid h)) /\ is_eof x) \/
     c = EC_CONNECTION_ERROR /\
     exists es1 x es2, map fst (since_open sid h) = es1 ++ x :: es2 /\ failure (fst (sess_run (sess_new svc sid W) es1)) x).
Proof.
  intros Hrun Hstep Hin. pose proof (mgr_run_reasons W gw f es) as R. rewrite Hrun in R.
  assert (Hl : life sid (h ++ o) = Some (is_live g' sid)).
  { pose proof (mgr_run_inv W gw f es) as I. rewrite Hrun in I. pose proof (mgr_step_inv W g h e I) as I'. rewrite Hstep in I'. apply I'. }
  assert (He : end_shape g sid c m /\ exists pre, o = pre ++ [OMsg (EndOf sid c) m]).
  { destruct e as [get svc k|m0|k|k len| |k t|ids]; cbn [mgr_step] in Hstep.
    - unfold mgr_connect in Hstep. destruct (connect_inner g get svc k) as [[[t mac] a]|]; [cbv zeta in Hstep; injection Hstep as _ <-|].
      + destruct Hin as [H|[]]; discriminate.
      + unfold create_hup in Hstep. cbn [next_id] in Hstep. injection Hstep as _ <-. destruct Hin as [H|[]]; discriminate.
    - unfold mgr_send in Hstep. cbv zeta in Hstep. destruct (find_sess g (m_session m0)) as [s|].
      + destruct (sess_step s _) as [s' ob]. injection Hstep as _ <-. destruct Hin as [H|[]]; discriminate.
      + unfold create_hup in Hstep. cbn [next_id] in Hstep. injection Hstep as _ <-. destruct Hin as [H|[]]; discriminate.
    - unfold mgr_close in Hstep. destruct (find_sess g k) as [s|]; [destruct (sess_step s _) as [s' ob]|]; injection Hstep as _ <-.
      + destruct Hin as [H|[H|[]]]; discriminate.
      + destruct Hin.
    - unfold mgr_data_ack in Hstep. destruct (find_sess g k) as [s|]; [destruct (sess_step s _) as [s' ob]|]; injection Hstep as _ <-.
      + destruct Hin as [H|[]]; discriminate.
      + destruct Hin.
    - unfold mgr_poll in Hstep. destruct (g_queue g) as [|q0 q].
      + pose proof (poll_loop_end (length (g_order g)) g sid c m) as P.
        assert (Hlast : let '(_, _, oo) := poll_loop (length (g_order g)) g in
          In (OMsg (EndOf sid c) m) oo -> exists pre, oo = pre ++ [OMsg (EndOf sid c) m]).
        { clear. generalize (length (g_order g)). intros n. revert g. induction n as [|n IH]; intros g; cbn [poll_loop]; [intros []|].
          destruct (g_order g) as [|x rest]; [apply IH|]. cbv zeta. set (g0 := set_order g rest).
          destruct (find_sess g0 x) as [s|]; [|apply (IH g0)].
          destruct (sess_take (g_factory g0) s) as [[[t s'] f'] o]. destruct t as [m0| | |].
          - intros [H|[H|[]]]; discriminate.
          - unfold create_hup. cbn [next_id]. intros [H|[H|[]]]; [discriminate|]. rewrite H. eexists [_]. reflexivity.
          - unfold create_hup. cbn [next_id]. intros [H|[H|[]]]; [discriminate|]. rewrite H. eexists [_]. reflexivity.
          - set (g2 := set_order (set_sess _ _ _) _). specialize (IH g2). destruct (poll_loop n g2) as [[r g3] os].
            intros [H|H]; [discriminate|]. destruct (IH H) as [pre ->]. eexists (_ :: pre). reflexivity. }
        destruct (poll_loop (length (g_order g)) g) as [[r g1] oo].
        assert (oo = o) by (destruct r; injection Hstep as _ <-; reflexivity). subst oo. split; auto.
      + injection Hstep as _ <-. destruct Hin as [H|[]]; discriminate.
    - destruct (find_sess g k) as [s|]; [destruct (sess_step s _) as [s' ob]|]; injection Hstep as _ <-.
      + destruct Hin as [H|[]]; discriminate.
      + destruct Hin.
    - injection Hstep as _ <-. destruct Hin. }
  destruct He as [(s & id & Hs & Hcl & Hc & Hm) [pre Hpre]]. destruct (R sid s Hs) as (svc & _ & R1 & R2).
  exists svc, id. split; [exact Hm|]. split.
  - rewrite Hpre, app_assoc, life_app in Hl. cbn [life_step] in Hl.
    destruct (life sid (h ++ pre)) as [[]|]; cbn [life_step] in Hl; rewrite ?N.eqb_refl in Hl; try discriminate.
    assert (Hl2 : is_live g' sid = false) by congruence. clear Hl. rename Hl2 into Hl. unfold is_live in Hl. now destruct (find_sess g' sid).
  - destruct (s_error s) eqn:Ee; [right|left]; (split; [exact Hc|]); auto.
Qed.

(** ** Scheduling *)
Lemma nodup_snoc (l : list N) x : NoDup l -> ~ In x l -> NoDup (l ++ [x]).
Proof.
  induction 1 as [|y l Hy Hl IH]; intros Hx; cbn [app]; [constructor; [intros []|constructor]|].
  constructor.
  - intros H. apply in_app_or in H as [H|[H|[]]]; [contradiction|subst; apply Hx; now left].
  - apply IH. intros H. apply Hx. now right.
Qed.

Lemma poll_loop_nodup n : forall g, NoDup (g_order g) -> let '(_, g', _) := poll_loop n g in NoDup (g_order g').
Proof.
  induction n as [|n IH]; intros g H; cbn [poll_loop]; [exact H|].
  destruct (g_order g) as [|x rest] eqn:Eo; [apply IH; rewrite Eo; constructor|].
  cbv zeta. set (g0 := set_order g rest). inversion H as [|? ? Hx Hr]; subst.
  destruct (find_sess g0 x) as [s|]; [|now apply (IH g0)].
  destruct (sess_take (g_factory g0) s) as [[[t s'] f'] o].
  assert (Hs : NoDup (rest ++ [x])) by now apply nodup_snoc.
  destruct t as [m| | |]; unfold create_hup; cbn [next_id]; try exact Hs; try exact Hr.
  set (g2 := set_order (set_sess _ _ _) _). specialize (IH g2 Hs). destruct (poll_loop n g2) as [[r g3] os]. exact IH.
Qed.

Lemma once_step g e :
  NoDup (g_order g) ->
  match e with MConnect _ _ sid => find_sess g sid = None -> ~ In sid (g_order g) | _ => True end ->
  NoDup (g_order (fst (mgr_step g e))).
Proof.
  intros H Hc. destruct e as [get svc sid|m|sid|sid len| |sid t|ids]; cbn [mgr_step].
  - unfold mgr_connect. destruct (connect_inner g get svc sid) as [[[t mac] a]|] eqn:Ec.
    + cbv zeta. cbn [fst]. gsimp.
      destruct (wake_task_fields (set_order g (g_order g ++ [sid]))) as (_ & _ & _ & _ & _ & ->). gsimp.
      apply nodup_snoc; [exact H|]. apply Hc. unfold connect_inner in Ec. destruct (find_sess g sid); [discriminate|reflexivity].
    + unfold create_hup. cbn [next_id fst].
      match goal with |- context [wake_task ?x] => destruct (wake_task_fields x) as (_ & _ & _ & _ & _ & ->) end. exact H.
  - unfold mgr_send. cbv zeta. destruct (find_sess g (m_session m)) as [s|].
    + destruct (sess_step s _) as [s' o]. exact H.
    + unfold create_hup. cbn [next_id fst].
      match goal with |- context [wake_task ?x] => destruct (wake_task_fields x) as (_ & _ & _ & _ & _ & ->) end. exact H.
  - unfold mgr_close. destruct (find_sess g sid) as [s|]; [destruct (sess_step s _) as [s' o]|]; exact H.
  - unfold mgr_data_ack. destruct (find_sess g sid) as [s|]; [destruct (sess_step s _) as [s' o]|]; exact H.
  - unfold mgr_poll. destruct (g_queue g); [|exact H]. pose proof (poll_loop_nodup (length (g_order g)) g H) as H1.
    destruct (poll_loop (length (g_order g)) g) as [[[] g1] o]; exact H1.
  - destruct (find_sess g sid) as [s|]; [destruct (sess_step s _) as [s' o]|]; exact H.
  - exact H.
Qed.

Lemma once_run es : forall g, NoDup (g_order g) -> no_stale_reuse g es -> NoDup (g_order (fst (mgr_run g es))).
Proof.
  induction es as [|e es IH]; intros g H Hs; [exact H|]. cbn [mgr_run]. destruct Hs as [Hs1 Hs2].
  pose proof (once_step g e H Hs1) as H1. destruct (mgr_step g e) as [g1 o1]. cbn [fst] in *.
  specialize (IH g1 H1 Hs2). destruct (mgr_run g1 es) as [g2 o2]. exact IH.
Qed.

Lemma once W gw f es g h :
  mgr_run (mgr_new W gw f) es = (g, h) -> no_stale_reuse (mgr_new W gw f) es -> NoDup (g_order g).
Proof. intros H Hs. pose proof (once_run es (mgr_new W gw f) ltac:(constructor) Hs) as P. now rewrite H in P. Qed.

Lemma once_refuted :
  exists (es : list mev) (g : mgr) (h : list mobs),
    mgr_run (mgr_new 65536 true 0) es = (g, h) /\ g_order g = [7; 7] /\ ~ NoDup (g_order g).
Proof.
  set (get := fun _ : N => Some (svc_tcp 1 {| sa_ip := V4 9; sa_port := 80 |})).
  exists [MConnect get 5 7; MClose 7; MConnect get 5 7]. eexists. eexists. split; [vm_compute; reflexivity|].
  split; [reflexivity|]. cbn [g_order]. intros H. inversion H as [|? ? Hx _]. apply Hx. now left.
Qed.

(** A poll without a message removes all stale entries. *)
Lemma poll_loop_purges n : forall g,
  (length (g_order g) >= n)%nat ->
  let '(r, g', o) := poll_loop n g in
  r = false ->
  exists kept, g_order g' = skipn n (g_order g) ++ kept /\
    (forall k, In k kept -> is_live g' k = true) /\ (forall k, is_live g k = true -> is_live g' k = true).
Proof.
  induction n as [|n IH]; intros g Hn; cbn [poll_loop].
  - intros _. exists []. cbn [skipn]. rewrite app_nil_r. repeat split; auto; try (intros k []).
  - destruct (g_order g) as [|x rest] eqn:Eo; [cbn [length] in Hn; lia|]. cbn [length] in Hn.
    cbv zeta. set (g0 := set_order g rest). destruct (find_sess g0 x) as [s|] eqn:Es.
    + destruct (sess_take (g_factory g0) s) as [[[t s'] f'] o].
      destruct t as [m| | |]; unfold create_hup; cbn [next_id]; try discriminate.
      set (g2 := set_order (set_sess _ _ _) _). specialize (IH g2).
      assert (Eo2 : g_order g2 = rest ++ [x]) by reflexivity. rewrite Eo2 in IH.
      specialize (IH ltac:(rewrite app_length; cbn [length]; lia)).
      destruct (poll_loop n g2) as [[r g3] os]. intros Hr. destruct (IH Hr) as (kept & A & B & C).
      exists ([x] ++ kept). rewrite A, skipn_app. replace (n - length rest)%nat with 0%nat by lia. cbn [skipn app].
      assert (Hx : is_live g2 x = true) by (unfold is_live, g2, find_sess; gsimp; now rewrite insert_same).
      split; [now rewrite <- app_assoc|]. split.
      * intros k [<-|Hk]; [now apply C|now apply B].
      * intros k Hk. apply C. unfold is_live, g2, find_sess in *. gsimp. rewrite alookup_insert.
        destruct (N.eqb k x); [reflexivity|exact Hk].
    + specialize (IH g0 ltac:(unfold g0; gsimp; lia)). destruct (poll_loop n g0) as [[r g3] os]. exact IH.
Qed.

Lemma stale_purged g g' o :
  mgr_poll g = (g', o) -> returned o = 0%nat -> forall k, In k (g_order g') -> find_sess g' k <> None.
Proof.
  unfold mgr_poll. destruct (g_queue g); [|intros [= _ <-]; discriminate].
  pose proof (poll_loop_purges (length (g_order g)) g (le_n _)) as P.
  destruct (poll_loop (length (g_order g)) g) as [[r g1] oo] eqn:El.
  intros H Hr. destruct r.
  - exfalso. injection H as _ <-. clear P.
    assert (G : forall n g, let '(r, _, oo) := poll_loop n g in r = true -> (0 < returned oo)%nat).
    { clear. induction n as [|n IH]; intros g; cbn [poll_loop]; [discriminate|].
      destruct (g_order g) as [|x rest]; [apply IH|]. cbv zeta. set (g0 := set_order g rest).
      destruct (find_sess g0 x) as [s|]; [|apply (IH g0)].
      destruct (sess_take (g_factory g0) s) as [[[t s'] f'] o]. destruct t as [m| | |]; unfold create_hup; cbn [next_id]; try (intros _; cbn; lia).
      set (g2 := set_order (set_sess _ _ _) _). specialize (IH g2). destruct (poll_loop n g2) as [[r g3] os]. exact IH. }
    specialize (G (length (g_order g)) g). rewrite El in G. specialize (G eq_refl). lia.
  - injection H as <- _. destruct (P eq_refl) as (kept & A & B & _). gsimp. rewrite A, skipn_all. cbn [app].
    intros k Hk. specialize (B k Hk). unfold is_live in B. unfold find_sess in *. gsimp. now destruct (alookup k (g_sessions g1)).
Qed.

(** ** Permitted connections *)
Lemma loopback_iff i : is_loopback i = true <-> loopback i.
Proof. destruct i as [a|a]; cbn [is_loopback loopback]; rewrite N.eqb_eq; [|reflexivity]. lia. Qed.

Lemma open_only_connect g e g' o sid t mac a :
  mgr_step g e = (g', o) -> In (OOpen sid t mac a) o -> exists get svc, e = MConnect get svc sid.
Proof.
  intros Hstep Hin. destruct e as [get svc k|m0|k|k len| |k u|ids]; cbn [mgr_step] in Hstep.
  - unfold mgr_connect in Hstep. destruct (connect_inner g get svc k) as [[[t0 mac0] a0]|]; [cbv zeta in Hstep; injection Hstep as _ <-|].
    + destruct Hin as [H|[]]; injection H as -> _ _ _. eauto.
    + unfold create_hup in Hstep. cbn [next_id] in Hstep. injection Hstep as _ <-. destruct Hin as [H|[]]; discriminate.
  - unfold mgr_send in Hstep. cbv zeta in Hstep. destruct (find_sess g (m_session m0)) as [s|].
    + destruct (sess_step s _) as [s' ob]. injection Hstep as _ <-. destruct Hin as [H|[]]; discriminate.
    + unfold create_hup in Hstep. cbn [next_id] in Hstep. injection Hstep as _ <-. destruct Hin as [H|[]]; discriminate.
  - unfold mgr_close in Hstep. destruct (find_sess g k) as [s|]; [destruct (sess_step s _) as [s' ob]|]; injection Hstep as _ <-.
    + destruct Hin as [H|[H|[]]]; discriminate.
    + destruct Hin.
  - unfold mgr_data_ack in Hstep. destruct (find_sess g k) as [s|]; [destruct (sess_step s _) as [s' ob]|]; injection Hstep as _ <-.
    + destruct Hin as [H|[]]; discriminate.
    + destruct Hin.
  - exfalso. unfold mgr_poll in Hstep. destruct (g_queue g) as [|q0 q].
    + assert (P : forall n g, let '(_, _, oo) := poll_loop n g in ~ In (OOpen sid t mac a) oo).
      { clear. induction n as [|n IH]; intros g; cbn [poll_loop]; [intros []|].
        destruct (g_order g) as [|x rest]; [apply IH|]. cbv zeta. set (g0 := set_order g rest).
        destruct (find_sess g0 x) as [s|]; [|apply (IH g0)].
        destruct (sess_take (g_factory g0) s) as [[[u s'] f'] o]. destruct u as [m0| | |]; unfold create_hup; cbn [next_id];
          try (intros [H|[H|[]]]; discriminate).
        set (g2 := set_order (set_sess _ _ _) _). specialize (IH g2). destruct (poll_loop n g2) as [[r g3] os].
        intros [H|H]; [discriminate|contradiction]. }
      specialize (P (length (g_order g)) g). destruct (poll_loop (length (g_order g)) g) as [[r g1] oo].
      apply P. destruct r; injection Hstep as _ <-; exact Hin.
    + injection Hstep as _ <-. destruct Hin as [H|[]]; discriminate.
  - destruct (find_sess g k) as [s|]; [destruct (sess_step s _) as [s' ob]|]; injection Hstep as _ <-.
    + destruct Hin as [H|[]]; discriminate.
    + destruct Hin.
  - injection Hstep as _ <-. destruct Hin.
Qed.

Definition permitted (g : mgr) (get : N -> option service) (svc sid : N) (s : service) (a : saddr) : Prop :=
  find_sess g sid = None /\ get svc = Some s /\ s_addr s = Some a /\ (g_gateway g = true \/ loopback (sa_ip a)).

Lemma connect_inner_iff g get svc sid t mac a :
  connect_inner g get svc sid = Some (t, mac, a) <->
  exists s, permitted g get svc sid s a /\ t = s_type s /\ mac = match s_mac s with Some m => m | None => 0 end.
Proof.
  unfold connect_inner, permitted. split.
  - destruct (find_sess g sid); [discriminate|]. destruct (get svc) as [s|]; [|discriminate].
    destruct (s_addr s) as [a0|] eqn:Ea; [|discriminate].
    destruct (negb (g_gateway g) && negb (is_loopback (sa_ip a0))) eqn:Eg; [discriminate|].
    intros [= <- <- <-]. exists s. rewrite <- loopback_iff. destruct (g_gateway g), (is_loopback (sa_ip a0)); cbn in Eg; try discriminate; repeat split; auto.
  - intros (s & (A & B & C & D) & -> & ->). rewrite A, B, C. rewrite <- loopback_iff in D.
    destruct (g_gateway g), (is_loopback (sa_ip a)); cbn; try reflexivity. destruct D; discriminate.
Qed.

Lemma connect_permitted g get svc sid g' o :
  mgr_step g (MConnect get svc sid) = (g', o) ->
  (exists s a, permitted g get svc sid s a /\
     o = [OOpen sid (s_type s) (match s_mac s with Some m => m | None => 0 end) a]) \/
  ((forall s a, ~ permitted g get svc sid s a) /\
   exists id, o = [OQueued (amsg_of_cmsg (mk_hup id sid EC_CONNECTION_ERROR))] /\
              g_queue g' = g_queue g ++ [amsg_of_cmsg (mk_hup id sid EC_CONNECTION_ERROR)] /\ g_sessions g' = g_sessions g).
Proof.
  cbn [mgr_step]. unfold mgr_connect. destruct (connect_inner g get svc sid) as [[[t mac] a]|] eqn:Ec.
  - intros [= _ <-]. left. apply connect_inner_iff in Ec as (s & P & -> & ->). eauto.
  - unfold create_hup. cbn [next_id]. intros [= <- <-]. right. split.
    + intros s a P. assert (X : connect_inner g get svc sid = Some (s_type s, match s_mac s with Some m => m | None => 0 end, a)).
      { apply connect_inner_iff. eauto. }
      congruence.
    + eexists. split; [reflexivity|].
      match goal with |- context [wake_task ?x] => destruct (wake_task_fields x) as (_ & _ & _ & -> & -> & _) end. split; reflexivity.
Qed.

(** The queue only holds HUP messages with code 3. *)
Lemma queued_hups g e g' o m :
  mgr_step g e = (g', o) -> In (OQueued m) o ->
  exists id sid, addressee e = Some sid /\ m = amsg_of_cmsg (mk_hup id sid EC_CONNECTION_ERROR).
Proof.
  intros Hstep Hin. destruct e as [get svc k|m0|k|k len| |k u|ids]; cbn [mgr_step] in Hstep.
  - unfold mgr_connect in Hstep. destruct (connect_inner g get svc k) as [[[t0 mac0] a0]|]; [cbv zeta in Hstep; injection Hstep as _ <-|].
    + destruct Hin as [H|[]]; discriminate.
    + unfold create_hup in Hstep. cbn [next_id] in Hstep. injection Hstep as _ <-. destruct Hin as [H|[]]; injection H as <-. cbn [addressee]. eauto.
  - unfold mgr_send in Hstep. cbv zeta in Hstep. destruct (find_sess g (m_session m0)) as [s|].
    + destruct (sess_step s _) as [s' ob]. injection Hstep as _ <-. destruct Hin as [H|[]]; discriminate.
    + unfold create_hup in Hstep. cbn [next_id] in Hstep. injection Hstep as _ <-. destruct Hin as [H|[]]; injection H as <-. cbn [addressee]. eauto.
  - unfold mgr_close in Hstep. destruct (find_sess g k) as [s|]; [destruct (sess_step s _) as [s' ob]|]; injection Hstep as _ <-.
    + destruct Hin as [H|[H|[]]]; discriminate.
    + destruct Hin.
  - unfold mgr_data_ack in Hstep. destruct (find_sess g k) as [s|]; [destruct (sess_step s _) as [s' ob]|]; injection Hstep as _ <-.
    + destruct Hin as [H|[]]; discriminate.
    + destruct Hin.
  - exfalso. unfold mgr_poll in Hstep. destruct (g_queue g) as [|q0 q].
    + assert (P : forall n g, let '(_, _, oo) := poll_loop n g in ~ In (OQueued m) oo).
      { clear. induction n as [|n IH]; intros g; cbn [poll_loop]; [intros []|].
        destruct (g_order g) as [|x rest]; [apply IH|]. cbv zeta. set (g0 := set_order g rest).
        destruct (find_sess g0 x) as [s|]; [|apply (IH g0)].
        destruct (sess_take (g_factory g0) s) as [[[u s'] f'] o]. destruct u as [m0| | |]; unfold create_hup; cbn [next_id];
          try (intros [H|[H|[]]]; discriminate).
        set (g2 := set_order (set_sess _ _ _) _). specialize (IH g2). destruct (poll_loop n g2) as [[r g3] os].
        intros [H|H]; [discriminate|contradiction]. }
      specialize (P (length (g_order g)) g). destruct (poll_loop (length (g_order g)) g) as [[r g1] oo].
      apply P. destruct r; injection Hstep as _ <-; exact Hin.
    + injection Hstep as _ <-. destruct Hin as [H|[]]; discriminate.
  - destruct (find_sess g k) as [s|]; [destruct (sess_step s _) as [s' ob]|]; injection Hstep as _ <-.
    + destruct Hin as [H|[]]; discriminate.
    + destruct Hin.
  - injection Hstep as _ <-. destruct Hin.
Qed.

(** ** Isolation *)
Lemma isolation g e k sid :
  addressee e = Some k -> sid <> k -> find_sess (fst (mgr_step g e)) sid = find_sess g sid.
Proof.
  intros Ha Hn. destruct e as [get svc k0|m0|k0|k0 len| |k0 u|ids]; cbn [addressee] in Ha; try discriminate; injection Ha as <-; cbn [mgr_step].
  - unfold mgr_connect. destruct (connect_inner g get svc k0) as [[[t0 mac0] a0]|]; cbn [fst].
    + cbv zeta. unfold find_sess. gsimp. rewrite insert_other by exact Hn.
      destruct (wake_task_fields (set_order g (g_order g ++ [k0]))) as (_ & _ & _ & _ & -> & _). reflexivity.
    + unfold create_hup. cbn [next_id fst]. unfold find_sess.
      match goal with |- context [wake_task ?x] => destruct (wake_task_fields x) as (_ & _ & _ & _ & -> & _) end. reflexivity.
  - unfold mgr_send. cbv zeta. destruct (find_sess g (m_session m0)) as [s|].
    + destruct (sess_step s _) as [s' ob]. cbn [fst]. unfold find_sess. gsimp. now rewrite insert_other.
    + unfold create_hup. cbn [next_id fst]. unfold find_sess.
      match goal with |- context [wake_task ?x] => destruct (wake_task_fields x) as (_ & _ & _ & _ & -> & _) end. reflexivity.
  - unfold mgr_close. destruct (find_sess g k0) as [s|]; [destruct (sess_step s _) as [s' ob]|]; cbn [fst]; [|reflexivity].
    unfold find_sess. gsimp. now rewrite remove_other.
  - unfold mgr_data_ack. destruct (find_sess g k0) as [s|]; [destruct (sess_step s _) as [s' ob]|]; cbn [fst]; [|reflexivity].
    unfold find_sess. gsimp. now rewrite insert_other.
  - destruct (find_sess g k0) as [s|]; [destruct (sess_step s _) as [s' ob]|]; cbn [fst]; [|reflexivity].
    unfold find_sess. gsimp. now rewrite insert_other.
Qed.

Lemma routed g sid s :
  find_sess g sid = Some s ->
  (forall m, m_session m = sid -> find_sess (fst (mgr_step g (MSend m))) sid = Some (fst (sess_step s (EPush (m_payload m))))) /\
  (forall n, find_sess (fst (mgr_step g (MDataAck sid n))) sid = Some (fst (sess_step s (EDataAck n)))) /\
  (forall get svc, find_sess (fst (mgr_step g (MConnect get svc sid))) sid = Some s) /\
  find_sess (fst (mgr_step g (MClose sid))) sid = None.
Proof.
  intros Hs. split; [|split; [|split]].
  - intros m Hm. cbn [mgr_step]. unfold mgr_send. cbv zeta. rewrite Hm, Hs. destruct (sess_step s _) as [s' o]. cbn [fst].
    unfold find_sess. gsimp. apply insert_same.
  - intros n. cbn [mgr_step]. unfold mgr_data_ack. rewrite Hs. destruct (sess_step s _) as [s' o]. cbn [fst].
    unfold find_sess. gsimp. apply insert_same.
  - intros get svc. cbn [mgr_step]. unfold mgr_connect, connect_inner. rewrite Hs. unfold create_hup. cbn [next_id fst]. unfold find_sess.
    match goal with |- context [wake_task ?x] => destruct (wake_task_fields x) as (_ & _ & _ & _ & -> & _) end. exact Hs.
  - cbn [mgr_step]. unfold mgr_close. rewrite Hs. destruct (sess_step s _) as [s' o]. cbn [fst]. unfold find_sess. gsimp. apply remove_same.
Qed.

(** ** Wake-ups of the connection task *)
Lemma mgr_idle_queue W gw f es : let '(g, h) := mgr_run (mgr_new W gw f) es in g_run g = false -> g_queue g = [].
Proof.
  induction es as [|e es IH] using rev_ind; [discriminate|]. rewrite mgr_run_snoc.
  pose proof (mgr_run_inv W gw f es) as Hi.
  destruct (mgr_run (mgr_new W gw f) es) as [g1 h1]. destruct Hi as [_ _ Ht _].
  assert (Hq : forall sid c, let '(m, g2) := create_hup g1 sid c in g_run (wake_task (set_queue g2 (g_queue g2 ++ [m]))) = false -> False).
  { intros sid c. unfold create_hup. cbn [next_id]. rewrite wake_task_run by exact Ht. discriminate. }
  destruct e as [get svc k0|m0|k0|k0 len| |k0 u|ids]; cbn [mgr_step].
  - unfold mgr_connect. destruct (connect_inner g1 get svc k0) as [[[t0 mac0] a0]|].
    + cbv zeta. gsimp. rewrite wake_task_run by exact Ht. discriminate.
    + specialize (Hq k0 EC_CONNECTION_ERROR). destruct (create_hup _ _ _) as [m g2]. intros H; now destruct Hq.
  - unfold mgr_send. cbv zeta. destruct (find_sess g1 (m_session m0)) as [s|].
    + destruct (sess_step s _) as [s' ob]. exact IH.
    + specialize (Hq (m_session m0) EC_CONNECTION_ERROR). destruct (create_hup _ _ _) as [m g2]. intros H; now destruct Hq.
  - unfold mgr_close. destruct (find_sess g1 k0) as [s|]; [destruct (sess_step s _) as [s' ob]|]; exact IH.
  - unfold mgr_data_ack. destruct (find_sess g1 k0) as [s|]; [destruct (sess_step s _) as [s' ob]|]; exact IH.
  - unfold mgr_poll. destruct (g_queue g1) as [|m q] eqn:Eq; [|gsimp; discriminate].
    pose proof (poll_loop_rest (length (g_order g1)) g1) as H3. destruct (poll_loop _ g1) as [[r g2] o].
    destruct r; gsimp; [discriminate|]. intros _. destruct H3 as (_ & _ & -> & _). exact Eq.
  - destruct (find_sess g1 k0) as [s|]; [destruct (sess_step s _) as [s' ob]|]; exact IH.
  - exact IH.
Qed.

Lemma no_lost_wakeup_task W gw f es g h :
  mgr_run (mgr_new W gw f) es = (g, h) ->
  g_run g = false -> (forall sid s, find_sess g sid = Some s -> s_mgr_run s = false) ->
  g_task g = true /\ g_queue g = [] /\ (forall sid s, find_sess g sid = Some s -> s_mgr_waker s = true /\ ~ has_report s).
Proof.
  intros H Hr Hs. pose proof (mgr_idle_queue W gw f es) as Hq. pose proof (mgr_run_inv W gw f es) as Hi. rewrite H in Hq, Hi.
  destruct Hi as [[_ Hsess] _ Ht _]. split; [auto|]. split; [auto|]. intros sid s Hf. specialize (Hs sid s Hf).
  destruct (Hsess sid s Hf) as [svc Hrun].
  destruct (no_lost_wakeup_mgr _ _ _ _ _ _ Hrun Hs) as (A & B & C & D & _). split; [exact A|].
  unfold has_report. intros [X|[[X Y]|X]]; [lia| |congruence]. destruct C as [C|C]; [contradiction|lia].
Qed.

(** A HUP on the wire does not always end the session. *)
Lemma wire_refuted :
  exists (es : list mev) (g : mgr) (h : list mobs) (id : N) (m : amsg),
    mgr_run (mgr_new 65536 true 0) es = (g, h) /\
    filter (fun x => match x with OMsg _ _ => true | _ => false end) h =
      [OMsg FromQueue (amsg_of_cmsg (mk_hup id 7 EC_CONNECTION_ERROR)); OMsg (FromSession 7) m] /\
    m_payload m = [1; 2].
Proof.
  set (get := fun _ : N => Some (svc_tcp 1 {| sa_ip := V4 9; sa_port := 80 |})).
  exists [MConnect get 5 7; MConnect get 5 7; MTransport 7 TConnected; MTransport 7 (TPolled (RdData [1; 2]) WrPending); MPoll; MPoll].
  eexists. eexists. exists 0. eexists. split; [vm_compute; reflexivity|]. split; [vm_compute; reflexivity|reflexivity].
Qed.
