(** The main task and the servers it talked to. *)
From Coq Require Import NArith ZArith List Bool Lia ZifyBool ZifyNat ZifyN.
From Verif.Model Require Import Bytes Frame Service Control Session Manager Client MainTask.
From Verif.Spec Require Import ControlSpec ClientSpec MainSpec EndSpec WholeSpec.
From Verif.Proofs Require Import MainProofs EndPf.
Import ListNotations.
Local Open Scope Z_scope.

Section Whole.
  Variable addr : bytes.
  (** What must hold of [x] after [h]. *)
  Definition told (h : list mtobs) (x : mtobs) : Prop :=
    match x with
    | TAttempt _ a => a = addr \/ exists h0 te, h = h0 ++ [TResult te (Redirected a)]
    | TState NotAuthorized => exists h0 te, h = h0 ++ [TResult te (Failed Unauthorized)]
    | TResult _ r => from_connection r (current_conn h)
    | _ => True
    end.
  Fixpoint told_from (h o : list mtobs) : Prop :=
    match o with [] => True | x :: o' => told h x /\ told_from (h ++ [x]) o' end.

  Lemma told_app o1 : forall h o2, told_from h (o1 ++ o2) <-> told_from h o1 /\ told_from (h ++ o1) o2.
  Proof.
    induction o1 as [|x o1 IH]; intros h o2; cbn [app told_from]; [rewrite app_nil_r; tauto|].
    rewrite IH, <- app_assoc. cbn [app]. tauto.
  Qed.
  Lemma told_conn o : forall h, told_from h (map TConn o).
  Proof. induction o as [|x o IH]; intros h; cbn [map told_from told]; auto. Qed.
  Lemma told_split h1 x h2 : told_from [] (h1 ++ x :: h2) -> told h1 x.
  Proof. rewrite told_app. cbn [told_from app]. tauto. Qed.

  Lemma told_start m t m' o h :
    start_attempt m t = (m', o) -> told h (TAttempt t (mt_current m)) -> told_from h o.
  Proof.
    intros E H. apply start_spec in E as (_ & _ & _ & _ & _ & _ & _ & ->). cbn [told_from]. split; [exact H|].
    unfold state_list. destruct (cstate_eqb _ _); cbn [told_from told]; auto.
  Qed.

  Lemma told_result m r now next m' o h :
    process_result m r now next = (m', o) -> mt_default m = addr -> from_connection r (current_conn h) -> told_from h o.
  Proof.
    unfold process_result. intros E D F. destruct (mt_diag m).
    { injection E as <- <-. cbn [told_from told]. auto. }
    destruct r as [a|k].
    - destruct (start_attempt (set_current m a) next) as [m1 o1] eqn:E1. injection E as <- <-. cbn [told_from told]. split; [exact F|].
      eapply told_start; [exact E1|]. cbn [set_current mt_current told]. right. eauto.
    - destruct (set_state m _) as [m1 o1] eqn:E1. apply set_state_spec in E1 as (D1 & _ & _ & _ & _ & _ & _ & ->).
      assert (T1 : told_from (h ++ [TResult now (Failed k)])
        (if cstate_eqb (match k with Unauthorized => NotAuthorized | _ => Disconnected end) (mt_state m) then []
         else [TState (match k with Unauthorized => NotAuthorized | _ => Disconnected end)])).
      { destruct (cstate_eqb _ _); [exact Logic.I|]. destruct k; cbn [told_from told]; eauto. }
      destruct (process_connection_error _ _ _ _) as [d|].
      + destruct (_ <? d).
        * injection E as <- <-. cbn [told_from]. split; [exact F|]. rewrite told_app. split; [exact T1|]. cbn [told_from told]. auto.
        * destruct (start_attempt _ next) as [m3 o3] eqn:E3. injection E as <- <-. cbn [told_from]. split; [exact F|]. rewrite told_app.
          split; [exact T1|]. eapply told_start; [exact E3|]. cbn [set_current mt_current told]. left. congruence.
      + injection E as <- <-. cbn [told_from]. split; [exact F|exact T1].
  Qed.

  Lemma told_step t0 diag m h e m' o :
    minv t0 addr diag m h -> mtask_step m e = (m', o) -> told_from h o.
  Proof.
    intros I. unfold mtask_step. pose proof (i_phase _ _ _ _ _ I) as P. pose proof (i_addr _ _ _ _ _ I) as A. unfold phase_ok in P.
    assert (Hsame : forall m2 o2, (m, []) = (m2, o2) -> told_from h o2) by (intros m2 o2 [= <- <-]; exact Logic.I).
    destruct (mt_phase m) as [|k|u| |c] eqn:Ep.
    - destruct P as (P1 & P2 & P3 & P4). destruct e as [cn now next|t i v1 v2|e now next|t]; try apply Hsame.
      + intros E. eapply told_result; [exact E|exact A|]. left. split; [exact P3|]. destruct cn; eauto.
      + destruct (conn_new t i v1 v2) as [k c] eqn:Ek. intros [= <- <-]. apply told_conn.
    - destruct P as (P1 & P2 & P3 & P4 & t1 & i & v1 & v2 & es & P5).
      destruct e as [cn now next|t i' v1' v2'|e now next|t]; try apply Hsame.
      destruct (conn_step k e) as [k1 c] eqn:Ek.
      assert (Hc : connection t1 i v1 v2 (es ++ [e]) = (k1, current_conn (h ++ map TConn c))).
      { rewrite cur_conn. unfold connection in *. destruct (conn_new t1 i v1 v2) as [k0 o0].
        assert (X : forall es k0, conn_run k0 (es ++ [e]) =
          (fst (conn_step (fst (conn_run k0 es)) e), snd (conn_run k0 es) ++ snd (conn_step (fst (conn_run k0 es)) e))).
        { clear. induction es as [|x es IH]; intros k0; cbn [app conn_run fst snd].
          - destruct (conn_step k0 e). now rewrite app_nil_r.
          - destruct (conn_step k0 x) as [k1 o1]. rewrite IH. destruct (conn_run k1 es). cbn [fst snd]. now rewrite app_assoc. }
        rewrite X. destruct (conn_run k0 es) as [k2 o2]. injection P5 as -> <-. cbn [fst snd]. rewrite Ek. cbn [fst snd].
        now rewrite app_assoc. }
      destruct (k_result k1) as [r|] eqn:Er.
      + destruct (process_result m r now next) as [m1 o1] eqn:Epr. intros [= <- <-]. rewrite told_app. split; [apply told_conn|].
        eapply told_result; [exact Epr|exact A|]. right. exists t1, i, v1, v2, (es ++ [e]), k1. auto.
      + intros [= <- <-]. apply told_conn.
    - destruct P as (a & te & k & P1 & P2 & P3 & P4 & P5 & P6).
      destruct e as [cn now next|t i' v1' v2'|e now next|t]; try apply Hsame.
      destruct (u <=? t); [|apply Hsame]. intros E. eapply told_start; [exact E|]. left. congruence.
    - destruct e; apply Hsame.
    - destruct e; apply Hsame.
  Qed.

  Lemma told_run t0 diag es : forall m h m' o,
    minv t0 addr diag m h -> mtask_run m es = (m', o) -> told_from h o.
  Proof.
    induction es as [|e es IH]; intros m h m' o I; cbn [mtask_run]; [intros [= <- <-]; exact Logic.I|].
    destruct (mtask_step m e) as [m1 o1] eqn:E1. destruct (mtask_run m1 es) as [m2 o2] eqn:E2. intros [= <- <-].
    rewrite told_app. split; [eapply told_step; eauto|]. eapply IH; [|exact E2]. eapply step_inv; eauto.
  Qed.

  Lemma told_task t0 t diag es m h : main_task t0 t addr diag es = (m, h) -> told_from [] h.
  Proof.
    unfold main_task. destruct (mtask_new t0 t addr diag) as [m0 o0] eqn:E0. destruct (mtask_run m0 es) as [m1 o1] eqn:E1.
    intros [= <- <-]. rewrite told_app. split; [|eapply told_run; [exact (new_inv _ _ _ _ _ _ E0)|exact E1]].
    unfold mtask_new in E0. eapply told_start; [exact E0|]. left. reflexivity.
  Qed.
End Whole.

Lemma cur_in x h : In x (current_conn h) -> In (TConn x) h.
Proof.
  induction h as [|y h IH] using rev_ind; [intros []|]. rewrite cur_app. cbn [fold_left].
  intros H. apply in_or_app. destruct y; try (left; now apply IH).
  apply in_app_or in H as [H|[<-|[]]]; [left; now apply IH|right; now left].
Qed.

(** The reason for a result. *)
Lemma result_reason r c :
  from_connection r c -> bytes_received c ->
  (c = [] /\ exists k, r = Failed k /\ (k = OtherError \/ k = ConnectionError)) \/ exists e, ends_for e c r.
Proof.
  intros [F|(t & i & v1 & v2 & es & k & H & Hr)] B; [now left|]. right.
  destruct (end_reason _ _ _ _ _ _ _ _ H B Hr) as (es1 & e & es2 & k1 & h1 & _ & _ & _ & E). eauto.
Qed.

Lemma redirect_reason c a :
  from_connection (Redirected a) c -> bytes_received c -> (forall en m, In (XRecv en m) c -> e_diagnostic en = false) -> sent_away c a.
Proof.
  intros F B D. destruct (result_reason _ _ F B) as [(_ & k & K & _)|(e & E)]; [discriminate K|].
  inversion E; subst.
  - exfalso. match goal with X : e_diagnostic ?en = true |- _ => rewrite (D en m) in X; [discriminate X|] end.
    apply in_or_app. right. now left.
  - unfold sent_away. eauto 8.
Qed.

Lemma refusal_reason c k :
  from_connection (Failed k) c -> bytes_received c -> k = Unauthorized \/ k = UnsupportedProtocolVersion ->
  exists code, answered c code /\ code = (match k with Unauthorized => 2 | _ => 1 end)%N.
Proof.
  intros F B D. destruct (result_reason _ _ F B) as [(_ & k' & K & L)|(e & E)].
  { injection K as <-. destruct D as [-> | ->], L; discriminate. }
  remember (Failed k) as r eqn:R. destruct E; try discriminate R; injection R as R;
    try (exfalso; subst k; destruct D; discriminate).
  assert (Rd : exists code, read_ack m = Some (REGISTER_ID, code) /\ code = (match k with Unauthorized => 2 | _ => 1 end)%N).
  { destruct (read_ack m) as [[id code]|]; [|exfalso; subst k; destruct D; discriminate].
    destruct (N.eqb_spec id REGISTER_ID) as [->|]; [|exfalso; subst k; destruct D; discriminate].
    exists code. split; [reflexivity|]. unfold verdict in R.
    destruct (N.eqb_spec code 1) as [Q|Q]; [subst k; exact Q|].
    destruct (N.eqb_spec code 2) as [Q2|Q2]; [subst k; exact Q2|].
    destruct (N.eqb_spec code 4294967295); exfalso; subst k; destruct D; discriminate. }
  destruct Rd as (code & R1 & R2). exists code. split; [|exact R2]. unfold answered. eauto 8.
Qed.

Lemma prefix_bytes h1 h2 : main_bytes (h1 ++ h2) -> bytes_received (current_conn h1).
Proof. intros B en m H. apply (B en m). apply in_or_app. left. now apply cur_in. Qed.

Lemma address_source t0 t addr diag es m h h1 t' a h2 :
  main_task t0 t addr diag es = (m, h) -> told_mode diag h -> main_bytes h -> h = h1 ++ TAttempt t' a :: h2 ->
  a = addr \/
  exists h0 te, h1 = h0 ++ [TResult te (Redirected a)] /\ sent_away (current_conn h0) a.
Proof.
  intros H D B E. pose proof (told_task _ _ _ _ _ _ _ H) as T. rewrite E in T. pose proof (told_split _ _ _ _ T) as X.
  cbn [told] in X. destruct X as [X|(h0 & te & X)]; [now left|]. right. exists h0, te. split; [exact X|].
  subst h1. rewrite <- app_assoc in T. cbn [app] in T. apply told_split in T. cbn [told] in T.
  rewrite E in B. rewrite <- app_assoc in B.
  destruct diag.
  - exfalso. pose proof (i_first _ _ _ _ _ (task_inv _ _ _ _ _ _ _ H) eq_refl) as G.
    destruct (first_attempt _ _ _ _ _ _ _ H) as (rest & Hf).
    rewrite E, <- app_assoc in G. cbn [app] in G. rewrite gaps_app in G. apply app_eq_nil in G as [_ G].
    destruct h0 as [|x0 h0']; [rewrite E in Hf; discriminate Hf|].
    assert (R : exists t1 a1, rd_attempt (now_at (x0 :: h0')) = Some (t1, a1)).
    { rewrite E in Hf. cbn [app] in Hf. injection Hf as -> _. clear. unfold now_at. cbn [read_all].
      destruct (read_step nothing_yet (TAttempt t addr)) as [r1 g1] eqn:E1. injection E1 as <- <-.
      assert (Q : forall l r, (exists t1 a1, rd_attempt r = Some (t1, a1)) -> exists t1 a1, rd_attempt (fst (read_all r l)) = Some (t1, a1)).
      { induction l as [|x l IH]; intros r Q; [exact Q|]. cbn [read_all]. destruct (read_step r x) as [r2 g2] eqn:E2.
        specialize (IH r2). destruct (read_all r2 l). cbn [fst] in *. apply IH. destruct x; cbn in E2; injection E2 as <- <-; cbn; eauto. }
      specialize (Q h0' {| rd_attempt := Some (t, addr); rd_result := None; rd_sleep := None |}).
      destruct (read_all _ h0'). cbn [fst] in Q |- *. apply Q. cbn. eauto. }
    destruct R as (t1 & a1 & R). cbn [read_all] in G.
    destruct (read_step (now_at (x0 :: h0')) (TResult te (Redirected a))) as [r1 g1] eqn:E1.
    cbn in E1. injection E1 as <- <-. destruct (read_step _ (TAttempt t' a)) as [r2 g2] eqn:E2. cbn in E2. rewrite R in E2.
    injection E2 as <- <-. destruct (read_all _ h2). discriminate G.
  - apply redirect_reason; [exact T|exact (prefix_bytes _ _ B)|].
    intros en m0 Hi. apply (D en m0). rewrite E. apply in_or_app. left. apply in_or_app. left. now apply cur_in.
Qed.

Lemma unauthorized_source t0 t addr diag es m h h1 h2 :
  main_task t0 t addr diag es = (m, h) -> main_bytes h -> h = h1 ++ TState NotAuthorized :: h2 ->
  exists h0 te, h1 = h0 ++ [TResult te (Failed Unauthorized)] /\ answered (current_conn h0) 2.
Proof.
  intros H B E. pose proof (told_task _ _ _ _ _ _ _ H) as T. rewrite E in T. pose proof (told_split _ _ _ _ T) as (h0 & te & X).
  exists h0, te. split; [exact X|]. subst h1. rewrite <- app_assoc in T. cbn [app] in T. apply told_split in T. cbn [told] in T.
  rewrite E, <- app_assoc in B.
  destruct (refusal_reason _ _ T (prefix_bytes _ _ B) (or_introl eq_refl)) as (code & A & ->). exact A.
Qed.

(** No connection is up after a result until the next attempt. *)
Fixpoint silent_from (over : bool) (h : list mtobs) : Prop :=
  match h with
  | [] => True
  | TAttempt _ _ :: h' => silent_from false h'
  | TResult _ _ :: h' => silent_from true h'
  | TConn _ :: h' => over = false /\ silent_from over h'
  | _ :: h' => silent_from over h'
  end.
Definition over_after (over : bool) (h : list mtobs) : bool :=
  fold_left (fun b x => match x with TAttempt _ _ => false | TResult _ _ => true | _ => b end) h over.
Lemma silent_app h1 : forall b h2, silent_from b (h1 ++ h2) <-> silent_from b h1 /\ silent_from (over_after b h1) h2.
Proof. induction h1 as [|x h1 IH]; intros b h2; cbn [app silent_from over_after fold_left]; [tauto|]. destruct x; rewrite IH; unfold over_after; tauto. Qed.
Lemma over_app b h o : over_after b (h ++ o) = over_after (over_after b h) o.
Proof. apply fold_left_app. Qed.
Lemma over_now h : over_after false h = (match rd_result (now_at h) with Some _ => true | None => false end).
Proof.
  induction h as [|x h IH] using rev_ind; [reflexivity|]. rewrite over_app, now_app. cbn [read_all over_after fold_left].
  destruct x; cbn [read_step fst rd_result]; try exact IH; reflexivity.
Qed.
Lemma silent_conn o : silent_from false (map TConn o).
Proof. induction o as [|x o IH]; cbn [map silent_from]; auto. Qed.
Lemma silent_quiet b s s0 : silent_from b (state_list s s0).
Proof. unfold state_list. destruct (cstate_eqb s s0); cbn; auto. Qed.
Lemma silent_start m t m' o b : start_attempt m t = (m', o) -> silent_from b o.
Proof. intros E. apply start_spec in E as (_ & _ & _ & _ & _ & _ & _ & ->). cbn [silent_from]. apply silent_quiet. Qed.
Lemma silent_result m r now next m' o b : process_result m r now next = (m', o) -> silent_from b o.
Proof.
  unfold process_result. destruct (mt_diag m); [intros [= <- <-]; cbn; auto|]. destruct r as [a|k].
  - destruct (start_attempt (set_current m a) next) as [m1 o1] eqn:E1. intros [= <- <-]. cbn [silent_from]. eapply silent_start. exact E1.
  - destruct (set_state m _) as [m1 o1] eqn:E1. apply set_state_spec in E1 as (_ & _ & _ & _ & _ & _ & _ & ->).
    destruct (process_connection_error _ _ _ _) as [d|].
    + destruct (_ <? d).
      * intros [= <- <-]. cbn [silent_from]. rewrite silent_app. split; [apply silent_quiet|]. cbn. auto.
      * destruct (start_attempt _ next) as [m3 o3] eqn:E3. intros [= <- <-]. cbn [silent_from]. rewrite silent_app.
        split; [apply silent_quiet|]. eapply silent_start. exact E3.
    + intros [= <- <-]. cbn [silent_from]. apply silent_quiet.
Qed.
Lemma silent_step t0 addr diag m h e m' o :
  minv t0 addr diag m h -> mtask_step m e = (m', o) -> silent_from (over_after false h) o.
Proof.
  intros I. unfold mtask_step. pose proof (i_phase _ _ _ _ _ I) as P. unfold phase_ok in P. rewrite over_now.
  assert (Hsame : forall b m2 o2, (m, []) = (m2, o2) -> silent_from b o2) by (intros b m2 o2 [= <- <-]; exact Logic.I).
  destruct (mt_phase m) as [|k|u| |c].
  - destruct P as (P1 & _). destruct e as [cn now next|t i v1 v2|e now next|t]; try apply Hsame.
    + apply silent_result.
    + destruct (conn_new t i v1 v2) as [k c]. intros [= <- <-]. rewrite P1. apply silent_conn.
  - destruct P as (P1 & _). destruct e as [cn now next|t i v1 v2|e now next|t]; try apply Hsame.
    destruct (conn_step k e) as [k1 c]. rewrite P1. cbn [rd_result]. destruct (k_result k1) as [r|].
    + destruct (process_result m r now next) as [m1 o1] eqn:Epr. intros [= <- <-]. rewrite silent_app. split; [apply silent_conn|].
      eapply silent_result. exact Epr.
    + intros [= <- <-]. apply silent_conn.
  - destruct e as [cn now next|t i v1 v2|e now next|t]; try apply Hsame. destruct (u <=? t); [|apply Hsame].
    apply silent_start.
  - destruct e; apply Hsame.
  - destruct e; apply Hsame.
Qed.
Lemma silent_run t0 addr diag es : forall m h m' o,
  minv t0 addr diag m h -> mtask_run m es = (m', o) -> silent_from (over_after false h) o.
Proof.
  induction es as [|e es IH]; intros m h m' o I; cbn [mtask_run]; [intros [= <- <-]; exact Logic.I|].
  destruct (mtask_step m e) as [m1 o1] eqn:E1. destruct (mtask_run m1 es) as [m2 o2] eqn:E2. intros [= <- <-].
  rewrite silent_app. split; [eapply silent_step; eauto|]. rewrite <- over_app. eapply IH; [|exact E2]. eapply step_inv; eauto.
Qed.
Lemma silent_task t0 t addr diag es m h : main_task t0 t addr diag es = (m, h) -> silent_from false h.
Proof.
  unfold main_task. destruct (mtask_new t0 t addr diag) as [m0 o0] eqn:E0. destruct (mtask_run m0 es) as [m1 o1] eqn:E1.
  intros [= <- <-]. rewrite silent_app. split; [unfold mtask_new in E0; eapply silent_start; exact E0|].
  eapply silent_run; [exact (new_inv _ _ _ _ _ _ E0)|exact E1].
Qed.

Lemma no_conn_kept l : forall c, silent_from true l -> (forall x, In x l -> is_attempt x = false) ->
  fold_left (fun c x => match x with TConn o => c ++ [o] | _ => c end) l c = c.
Proof.
  induction l as [|x l IH]; intros c H A; [reflexivity|]. cbn [fold_left].
  assert (Ax := A x (or_introl eq_refl)). assert (Al : forall y, In y l -> is_attempt y = false) by (intros y Hy; apply A; now right).
  destruct x; cbn [silent_from] in H; try (apply IH; auto; fail); try discriminate Ax. destruct H as [H _]. discriminate H.
Qed.
Lemma result_last h te r :
  rd_result (now_at h) = Some (te, r) -> exists h1 h2, h = h1 ++ TResult te r :: h2 /\ forall x, In x h2 -> is_attempt x = false.
Proof.
  induction h as [|x h IH] using rev_ind; [discriminate|]. rewrite now_app. cbn [read_all].
  destruct (read_step (now_at h) x) as [r1 g1] eqn:E. cbn [fst]. intros H.
  assert (Hk : rd_result (now_at h) = Some (te, r) -> is_attempt x = false -> exists h1 h2,
    h ++ [x] = h1 ++ TResult te r :: h2 /\ forall x, In x h2 -> is_attempt x = false).
  { intros Q Qx. destruct (IH Q) as (h1 & h2 & X & Y). exists h1, (h2 ++ [x]). split; [rewrite X, <- app_assoc; reflexivity|].
    intros y Hy. apply in_app_or in Hy as [Hy|[<-|[]]]; auto. }
  destruct x; cbn [read_step] in E; injection E as <- <-; cbn [rd_result] in H; try (apply Hk; auto; fail); try discriminate H.
  injection H as -> ->. exists h, []. split; [reflexivity|]. intros x [].
Qed.

Lemma last_result t0 t addr diag es m h te r :
  main_task t0 t addr diag es = (m, h) -> rd_result (now_at h) = Some (te, r) -> from_connection r (current_conn h).
Proof.
  intros H Hr. destruct (result_last _ _ _ Hr) as (h1 & h2 & E & A).
  pose proof (silent_task _ _ _ _ _ _ _ H) as S. rewrite E, silent_app in S. destruct S as [_ S]. cbn [silent_from] in S.
  pose proof (told_task _ _ _ _ _ _ _ H) as T. rewrite E in T. apply told_split in T. cbn [told] in T.
  assert (X : current_conn h = current_conn h1).
  { rewrite E, cur_app. cbn [fold_left]. rewrite <- (no_conn_kept h2 (current_conn h1) S A) at 2.
    clear - A. generalize (current_conn h1). induction h2 as [|x h2 IH]; intros c; [reflexivity|]. cbn [fold_left].
    assert (Ax := A x (or_introl eq_refl)). destruct x; try discriminate Ax; apply IH; intros y Hy; apply A; now right. }
  now rewrite X.
Qed.

Lemma gives_up t0 t addr es m h :
  main_task t0 t addr false es = (m, h) -> main_bytes h ->
  rd_result (now_at h) = None \/ (exists u, rd_sleep (now_at h) = Some u) \/
  (exists te, rd_result (now_at h) = Some (te, Failed UnsupportedProtocolVersion) /\ answered (current_conn h) 1) \/
  (exists te, rd_result (now_at h) = Some (te, Failed Unauthorized) /\ answered (current_conn h) 2 /\ t0 + 1200 * SEC <= te).
Proof.
  intros H B. pose proof (task_inv _ _ _ _ _ _ _ H) as I. pose proof (i_phase _ _ _ _ _ I) as P. pose proof (i_diag _ _ _ _ _ I) as D.
  unfold phase_ok in P. assert (Bc : bytes_received (current_conn h)) by (apply (prefix_bytes h []); now rewrite app_nil_r).
  destruct (mt_phase m) as [|k|u| |c].
  - destruct P as (P & _). left. now rewrite P.
  - destruct P as (P & _). left. now rewrite P.
  - destruct P as (a & te & k & P & _). right. left. exists u. now rewrite P.
  - destruct P as (a & te & k & P & _ & Q & _). right. right.
    assert (Hr : rd_result (now_at h) = Some (te, Failed k)) by now rewrite P.
    pose proof (last_result _ _ _ _ _ _ _ _ _ H Hr) as F. destruct Q as [-> |[-> Q]].
    + left. exists te. split; [exact Hr|]. destruct (refusal_reason _ _ F Bc (or_intror eq_refl)) as (code & A & ->). exact A.
    + right. exists te. split; [exact Hr|]. destruct (refusal_reason _ _ F Bc (or_introl eq_refl)) as (code & A & ->). split; [exact A|].
      unfold pairing_delay in Q. destruct (te <? _); [discriminate|]. destruct (Z.ltb_spec te (t0 + 1200 * SEC)); [discriminate|lia].
  - destruct P as (a & te & r & _ & _ & _ & _ & X & _). congruence.
Qed.
