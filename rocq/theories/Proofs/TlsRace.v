(** The choice of the address. *)
From Coq Require Import NArith ZArith List Bool Lia.
From Coq Require Import ZifyBool ZifyNat ZifyN.
From Verif.Model Require Import Bytes Tls.
From Verif.Spec Require Import TlsSpec.
Import ListNotations.
Local Open Scope Z_scope.

Definition sleeping (r : race) : list attempt := match rc_sleep r with Some (_, a) => [a] | None => [] end.
Definition line (r : race) : list attempt := map pg_att (rc_queue r) ++ sleeping r ++ rc_left r.
Definition failed (a : attempt) : Prop := at_time a <> None /\ at_ok a = false.
Definition faithful (p : progress) : Prop := pg_end p = None <-> at_time (pg_att p) = None.

Record inv (now : Z) (l pre : list attempt) (r : race) : Prop := {
  iv_line : l = pre ++ line r;
  iv_pre : Forall failed pre;
  iv_width : (length (rc_queue r) <= WIDTH)%nat;
  iv_faith : Forall faithful (rc_queue r);
  iv_starts : map fst (rev (rc_starts r)) = map at_id (pre ++ map pg_att (rc_queue r));
  iv_first : rc_first r = true -> rc_starts r = [] /\ rc_sleep r = None;
  iv_begun : rc_first r = false -> rc_starts r <> [];
  iv_spaced : spaced (rc_starts r);
  iv_last : match rc_starts r with
            | [] => True
            | (_, s) :: _ => s <= now /\ match rc_sleep r with Some (t, _) => s + SECOND <= t | None => True end
            end }.

Lemma inv_later now now' l pre r : now <= now' -> inv now l pre r -> inv now' l pre r.
Proof.
  intros L [A B C D E F G H I]. constructor; auto. destruct (rc_starts r) as [|[x s] q]; [exact I|]. destruct I as [I J]. split; [lia|exact J].
Qed.

Lemma inv_new l : inv 0 l [] (race_new l).
Proof. constructor; cbn; auto; try discriminate; try constructor; auto. Qed.

(** An address that is due is started. *)
Lemma inv_start now l pre r a r' : inv now l pre r -> (length (rc_queue r) < WIDTH)%nat -> then_poll now r = (GItem a, r') ->
  inv now l pre (start now a r').
Proof.
  intros [A B C D E F G H I] W T. unfold then_poll in T.
  assert (X : rc_queue r' = rc_queue r /\ rc_starts r' = rc_starts r /\ rc_sleep r' = None /\ rc_first r' = false /\
              sleeping r ++ rc_left r = a :: rc_left r' /\
              match rc_starts r with [] => True | (_, s) :: _ => s + SECOND <= now end).
  { destruct (rc_sleep r) as [[t b]|] eqn:S.
    - destruct (t <=? now) eqn:Q; [|discriminate]. injection T as T1 T2. subst b r'. cbn. repeat split; auto.
      + destruct (rc_first r) eqn:Z; [|reflexivity]. destruct (F eq_refl); discriminate.
      + unfold sleeping. now rewrite S.
      + destruct (rc_starts r) as [|[x s] q]; [exact Logic.I|]. lia.
    - destruct (rc_left r) as [|b q] eqn:Q; [discriminate|]. destruct (rc_first r) eqn:Z; [|discriminate].
      injection T as T1 T2. subst b r'. cbn. unfold sleeping. rewrite S. repeat split; auto.
      destruct (F eq_refl) as [Y _]. now rewrite Y. }
  destruct X as [X1 [X2 [X3 [X4 [X5 X6]]]]]. constructor; unfold start; cbn.
  - rewrite A. unfold line, start, sleeping; cbn. rewrite X1, X3, map_app, <- app_assoc. cbn. f_equal. f_equal. exact X5.
  - exact B.
  - rewrite X1, app_length; cbn. lia.
  - rewrite X1. apply Forall_app. split; [exact D|]. constructor; [|constructor]. unfold faithful; cbn. destruct (at_time a); cbn; split; congruence.
  - rewrite X2, X1, (map_app fst), E, (map_app pg_att), app_assoc, (map_app at_id (pre ++ _)). reflexivity.
  - rewrite X4. discriminate.
  - discriminate.
  - rewrite X2. split; [|exact H]. destruct (rc_starts r) as [|[x s] q]; [exact Logic.I|exact X6].
  - rewrite X3. split; [lia|exact Logic.I].
Qed.
Lemma inv_wait now l pre r g r' : inv now l pre r -> then_poll now r = (g, r') -> (forall a, g <> GItem a) -> inv now l pre r'.
Proof.
  intros V T N. unfold then_poll in T. destruct (rc_sleep r) as [[t b]|] eqn:S.
  - destruct (t <=? now); injection T as T1 T2; subst; [now elim (N b)|exact V].
  - destruct (rc_left r) as [|b q] eqn:Q; [injection T as T1 T2; subst; exact V|].
    destruct (rc_first r) eqn:Z; injection T as T1 T2; subst; [now elim (N b)|].
    destruct V as [A B C D E F G H I]. constructor; cbn; auto.
    + rewrite A. unfold line, sleeping; cbn. now rewrite S, Q.
    + discriminate.
    + rewrite S in I. destruct (rc_starts r) as [|[x s] q']; [exact I|]. split; [lia|]. unfold SECOND in *. lia.
Qed.
Lemma inv_fill now l pre : forall n r, inv now l pre r -> (length (rc_queue r) + n <= WIDTH)%nat -> inv now l pre (fill n now r).
Proof.
  induction n as [|n IH]; intros r V W; cbn [fill]; [exact V|]. destruct (then_poll now r) as [g r'] eqn:T.
  destruct g as [a| |]; [|eapply inv_wait; eauto; discriminate|eapply inv_wait; eauto; discriminate].
  apply IH; [eapply inv_start; eauto; lia|].
  assert (Q : rc_queue r' = rc_queue r).
  { unfold then_poll in T. destruct (rc_sleep r) as [[t b]|]; [destruct (t <=? now); injection T as T1 T2; now subst|].
    destruct (rc_left r); [injection T as T1 T2; now subst|]. destruct (rc_first r); injection T as T1 T2; now subst. }
  unfold start; cbn. rewrite Q, app_length; cbn. lia.
Qed.
Lemma inv_fill_all now l pre r : inv now l pre r -> inv now l pre (fill (WIDTH - length (rc_queue r)) now r).
Proof. intros V. apply inv_fill; [exact V|]. pose proof (iv_width _ _ _ _ V). lia. Qed.

(** After that the queue is full, or an address sleeps, or there are none left. *)
Lemma fill_full now : forall n r, (length (rc_queue r) + n = WIDTH)%nat -> (length (rc_queue (fill n now r)) <= WIDTH)%nat ->
  length (rc_queue (fill n now r)) = WIDTH \/ (exists t a, rc_sleep (fill n now r) = Some (t, a) /\ now < t) \/
  (rc_sleep (fill n now r) = None /\ rc_left (fill n now r) = []).
Proof.
  induction n as [|n IH]; intros r W Z; cbn [fill] in *; [left; lia|]. unfold then_poll in *. destruct (rc_sleep r) as [[t b]|] eqn:S.
  - destruct (t <=? now) eqn:Q.
    + apply IH; [|exact Z]. unfold start; cbn. rewrite app_length; cbn. lia.
    + right. left. exists t, b. split; [exact S|lia].
  - destruct (rc_left r) as [|b q] eqn:Q; [right; right; now split|]. destruct (rc_first r).
    + apply IH; [|exact Z]. unfold start; cbn. rewrite app_length; cbn. lia.
    + right. left. cbn. exists (now + SECOND), b. split; [reflexivity|unfold SECOND; lia].
Qed.

(** One connection less *)
Definition popped (q : list progress) (r : race) : race :=
  {| rc_left := rc_left r; rc_first := rc_first r; rc_sleep := rc_sleep r; rc_queue := q; rc_starts := rc_starts r |}.
Lemma inv_pop now l pre r p q : inv now l pre r -> rc_queue r = p :: q -> failed (pg_att p) -> inv now l (pre ++ [pg_att p]) (popped q r).
Proof.
  intros [A B C D E F G H I] Q X. constructor; cbn; auto.
  - rewrite A. unfold line, sleeping; cbn. rewrite Q. cbn. now rewrite <- app_assoc.
  - apply Forall_app. split; [exact B|]. constructor; [exact X|constructor].
  - rewrite Q in C. cbn in C. lia.
  - rewrite Q in D. now inversion D.
  - rewrite E, Q, <- app_assoc. reflexivity.
Qed.

Definition waits (now : Z) (r : race) : Prop :=
  match rc_queue r with
  | [] => exists t a, rc_sleep r = Some (t, a) /\ now < t
  | p :: _ => ended now p = false
  end.
Inductive buffered_spec (now : Z) (l pre : list attempt) : taken * race -> Prop :=
| bs_item p q r : inv now l pre r -> rc_queue r = p :: q -> ended now p = true -> buffered_spec now l pre (TItem (pg_att p), popped q r)
| bs_wait r : inv now l pre r -> waits now r -> buffered_spec now l pre (TWait, r)
| bs_end r : inv now l pre r -> line r = [] -> buffered_spec now l pre (TEnd, r).
Lemma buffered_ok now l pre r : inv now l pre r -> buffered_spec now l pre (buffered_poll now r).
Proof.
  intros V. unfold buffered_poll. pose proof (inv_fill_all _ _ _ _ V) as W.
  assert (X := fill_full now (WIDTH - length (rc_queue r)) r). pose proof (iv_width _ _ _ _ V) as V3. pose proof (iv_width _ _ _ _ W) as W3.
  specialize (X ltac:(lia) W3).
  set (r1 := fill (WIDTH - length (rc_queue r)) now r) in *. clearbody r1. destruct (rc_queue r1) as [|p q] eqn:Q.
  - destruct X as [X|[[t [a [X1 X2]]]|[X1 X2]]]; [discriminate| |].
    + rewrite X1. replace (match rc_left r1 with [] => TWait | _ => TWait end) with TWait by now destruct (rc_left r1).
      apply bs_wait; [exact W|]. unfold waits. rewrite Q. eauto.
    + rewrite X1, X2. apply bs_end; [exact W|]. unfold line, sleeping. now rewrite Q, X1, X2.
  - destruct (ended now p) eqn:Z; [now apply bs_item|]. apply bs_wait; [exact W|]. unfold waits. now rewrite Q.
Qed.

Lemma ended_time now p : faithful p -> ended now p = true -> at_time (pg_att p) <> None.
Proof. unfold ended. intros F H G. apply F in G. now rewrite G in H. Qed.
Lemma verdict_pre pre r : Forall failed pre -> verdict (pre ++ r) = verdict r.
Proof.
  induction 1 as [|a pre [A B] F IH]; [reflexivity|]. cbn. rewrite B. destruct (at_time a); [exact IH|now elim A].
Qed.

Definition todo_line (r : race) : todo r = length (line r).
Proof. unfold todo, line, sleeping. rewrite !app_length, map_length. destruct (rc_sleep r) as [[t a]|]; cbn; lia. Qed.

Definition race_spec (now : Z) (l : list attempt) (o : raced) : Prop :=
  match o with
  | RWait r => exists pre, inv now l pre r /\ waits now r
  | RDone w r => verdict l = Some w /\ spaced (rc_starts r) /\ (length (rc_queue r) <= WIDTH)%nat /\
                 exists n, map fst (rev (rc_starts r)) = map at_id (firstn n l)
  | ROut => False
  end.
Lemma starts_prefix now l pre r : inv now l pre r -> exists n, map fst (rev (rc_starts r)) = map at_id (firstn n l).
Proof.
  intros V. exists (length (pre ++ map pg_att (rc_queue r))). rewrite (iv_starts _ _ _ _ V). f_equal.
  rewrite (iv_line _ _ _ _ V). unfold line. rewrite app_assoc. now rewrite firstn_app, Nat.sub_diag, firstn_all, app_nil_r.
Qed.
Lemma next_ok now l : forall fuel pre r, inv now l pre r -> (length (line r) < fuel)%nat -> race_spec now l (next_socket fuel now r).
Proof.
  induction fuel as [|f IH]; intros pre r V L; [lia|]. cbn [next_socket].
  assert (LL : forall r1, inv now l pre r1 -> length (line r1) = length (line r)).
  { intros r1 V1. pose proof (iv_line _ _ _ _ V) as A. rewrite (iv_line _ _ _ _ V1) in A. apply app_inv_head in A. now rewrite A. }
  destruct (buffered_ok now l pre r V) as [p q r1 V1 Q Z|r1 V1 W1|r1 V1 W1].
  - pose proof (iv_faith _ _ _ _ V1) as F. rewrite Q in F. pose proof (ended_time now p (Forall_inv F) Z) as T.
    destruct (at_ok (pg_att p)) eqn:O.
    + cbn. split; [|split; [exact (iv_spaced _ _ _ _ V1)|]].
      * rewrite (iv_line _ _ _ _ V1), verdict_pre by exact (iv_pre _ _ _ _ V1). unfold line. rewrite Q. cbn. rewrite O.
        destruct (at_time (pg_att p)); [reflexivity|now elim T].
      * split; [pose proof (iv_width _ _ _ _ V1) as C; rewrite Q in C; cbn in C; lia|]. exact (starts_prefix _ _ _ _ V1).
    + apply (IH (pre ++ [pg_att p])); [apply inv_pop; [exact V1|exact Q|now split]|].
      specialize (LL r1 V1). unfold line, sleeping, popped in *; cbn. rewrite Q in LL. cbn in LL. lia.
  - exists pre. now split.
  - cbn. split; [|split; [exact (iv_spaced _ _ _ _ V1)|split; [exact (iv_width _ _ _ _ V1)|exact (starts_prefix _ _ _ _ V1)]]].
    rewrite (iv_line _ _ _ _ V1), W1, verdict_pre by exact (iv_pre _ _ _ _ V1). reflexivity.
Qed.
Lemma poll_ok now l pre r : inv now l pre r -> race_spec now l (race_poll now r).
Proof. intros V. apply (next_ok now l _ pre); [exact V|]. rewrite todo_line. lia. Qed.

(** ** Any sequence of polls *)
Lemma polls_ok l : forall times now pre r, inv now l pre r -> ascending now times ->
  match race_polls times r with
  | RWait r' => state_ok l r'
  | RDone w r' => verdict l = Some w /\ state_ok l r'
  | ROut => False
  end.
Proof.
  induction times as [|t times IH]; intros now pre r V A; cbn [race_polls].
  - split; [exact (iv_spaced _ _ _ _ V)|]. split; [exact (iv_width _ _ _ _ V)|exact (starts_prefix _ _ _ _ V)].
  - destruct A as [A B]. pose proof (poll_ok t l pre r (inv_later _ _ _ _ _ A V)) as P. destruct (race_poll t r) as [r'|w r'|].
    + destruct P as [pre' [V' _]]. exact (IH t pre' r' V' B).
    + destruct P as [P1 [P2 [P3 P4]]]. split; [exact P1|]. split; [exact P2|now split].
    + contradiction.
Qed.
Theorem polls_outcome l times : ascending 0 times ->
  match race_polls times (race_new l) with
  | RWait r' => state_ok l r'
  | RDone w r' => verdict l = Some w /\ state_ok l r'
  | ROut => False
  end.
Proof. intros A. exact (polls_ok l times 0 [] _ (inv_new l) A). Qed.

(** ** Events *)
Lemma fold_min l : forall t, In (fold_left Z.min l t) (t :: l) /\ forall x, In x (t :: l) -> fold_left Z.min l t <= x.
Proof.
  induction l as [|y l IH]; intros t; cbn [fold_left]; [split; [now left|intros x [X|[]]; lia]|].
  destruct (IH (Z.min t y)) as [A B]. split.
  - destruct A as [A|A]; [|right; now right]. rewrite <- A. destruct (Z.min_spec t y) as [[_ M]|[_ M]]; rewrite M; [now left|right; now left].
  - intros x [X|[X|X]].
    + subst x. specialize (B (Z.min t y) (or_introl eq_refl)). lia.
    + subst x. specialize (B (Z.min t y) (or_introl eq_refl)). lia.
    + apply B. now right.
Qed.
Lemma earliest_some l t : earliest l = Some t -> In t l /\ forall x, In x l -> t <= x.
Proof. destruct l as [|y l]; cbn [earliest]; [discriminate|]. intros H. injection H as H. subst t. apply fold_min. Qed.
Lemma earliest_none l : earliest l = None -> l = [].
Proof. destruct l; [reflexivity|discriminate]. Qed.
Lemma event_in now r t : In t (events now r) <-> now < t /\ ((exists a, rc_sleep r = Some (t, a)) \/ exists p, In p (rc_queue r) /\ pg_end p = Some t).
Proof.
  unfold events. rewrite filter_In, in_app_iff, in_flat_map. split.
  - intros [[A|A] B]; (split; [lia|]).
    + left. destruct (rc_sleep r) as [[x a]|]; [|contradiction]. destruct A as [A|[]]. subst x. eauto.
    + right. destruct A as [p [A1 A2]]. exists p. split; [exact A1|]. destruct (pg_end p); [|contradiction]. destruct A2 as [A2|[]]. now subst.
  - intros [B [[a A]|[p [A1 A2]]]]; (split; [|lia]).
    + left. rewrite A. now left.
    + right. exists p. split; [exact A1|]. rewrite A2. now left.
Qed.

(** ** The measure: events that can still happen *)
Definition future (now : Z) (t : option Z) : nat := match t with Some x => if now <? x then 1 else 0 | None => 0 end.
Definition sum (l : list nat) : nat := fold_right Nat.add 0%nat l.
Definition ahead (now : Z) (r : race) : nat :=
  (3 * length (rc_left r) + match rc_sleep r with Some (t, _) => 1 + future now (Some t) | None => 0 end +
   sum (map (fun p => future now (pg_end p)) (rc_queue r)))%nat.
Lemma sum_app a b : sum (a ++ b) = (sum a + sum b)%nat.
Proof. unfold sum. induction a as [|x a IH]; cbn [app fold_right]; [reflexivity|]. rewrite IH. lia. Qed.
Lemma future_le now t : (future now t <= 1)%nat.
Proof. unfold future. destruct t as [x|]; [destruct (now <? x)|]; lia. Qed.
Lemma ahead_fill now : forall n r, (ahead now (fill n now r) <= ahead now r)%nat.
Proof.
  induction n as [|n IH]; intros r; cbn [fill]; [lia|]. unfold then_poll. destruct (rc_sleep r) as [[t a]|] eqn:S.
  - destruct (t <=? now) eqn:Q; [|lia]. eapply Nat.le_trans; [apply IH|]. unfold ahead, start; cbn [rc_left rc_sleep rc_queue]. rewrite S, map_app, sum_app. cbn [map sum fold_right].
    pose proof (future_le now (pg_end {| pg_end := option_map (Z.add now) (at_time a); pg_att := a |})). lia.
  - destruct (rc_left r) as [|a l] eqn:Q; [lia|]. destruct (rc_first r).
    + eapply Nat.le_trans; [apply IH|]. unfold ahead, start; cbn [rc_left rc_sleep rc_queue]. rewrite S, Q, map_app, sum_app. cbn [map sum fold_right length].
      pose proof (future_le now (pg_end {| pg_end := option_map (Z.add now) (at_time a); pg_att := a |})). lia.
    + unfold ahead; cbn [rc_left rc_sleep rc_queue]. rewrite S, Q. cbn [length]. pose proof (future_le now (Some (now + SECOND))). lia.
Qed.
Lemma ahead_buffered now r : (ahead now (snd (buffered_poll now r)) <= ahead now r)%nat.
Proof.
  unfold buffered_poll. pose proof (ahead_fill now (WIDTH - length (rc_queue r)) r) as A.
  set (r1 := fill (WIDTH - length (rc_queue r)) now r) in *. clearbody r1. destruct (rc_queue r1) as [|p q] eqn:Q; cbn [snd]; [exact A|].
  destruct (ended now p); cbn [snd]; [|exact A]. eapply Nat.le_trans; [|exact A]. unfold ahead; cbn [rc_left rc_sleep rc_queue]. rewrite Q. cbn [map sum fold_right]. unfold sum. lia.
Qed.
Lemma ahead_next now : forall f r r', next_socket f now r = RWait r' -> (ahead now r' <= ahead now r)%nat.
Proof.
  induction f as [|f IH]; intros r r' E; [discriminate|]. cbn [next_socket] in E. pose proof (ahead_buffered now r) as A.
  destruct (buffered_poll now r) as [[a| |] r1]; cbn [snd] in A.
  - destruct (at_ok a); [discriminate|]. specialize (IH r1 r' E). lia.
  - injection E as E. subst. exact A.
  - discriminate.
Qed.
Lemma future_later now t x : now <= t -> (future t x <= future now x)%nat.
Proof. unfold future. intros H. destruct x as [x|]; [|lia]. destruct (now <? x) eqn:A, (t <? x) eqn:B; lia. Qed.
Lemma future_self t : future t (Some t) = 0%nat.
Proof. unfold future. destruct (t <? t) eqn:A; lia. Qed.
Lemma future_now now t : now < t -> future now (Some t) = 1%nat.
Proof. unfold future. intros H. destruct (now <? t) eqn:A; lia. Qed.
Lemma ahead_later now r t : earliest (events now r) = Some t -> now < t /\ (ahead t r < ahead now r)%nat.
Proof.
  intros E. apply earliest_some in E. destruct E as [I _]. apply event_in in I. destruct I as [L I]. split; [exact L|].
  assert (S1 : (sum (map (fun p => future t (pg_end p)) (rc_queue r)) <= sum (map (fun p => future now (pg_end p)) (rc_queue r)))%nat).
  { clear I. induction (rc_queue r) as [|p q IH]; cbn [map sum fold_right]; [lia|]. unfold sum in IH. pose proof (future_later now t (pg_end p) ltac:(lia)). lia. }
  unfold ahead. destruct I as [[a I]|[p [I1 I2]]].
  - rewrite I, future_self, (future_now now t L). lia.
  - assert (S2 : (sum (map (fun p => future t (pg_end p)) (rc_queue r)) < sum (map (fun p => future now (pg_end p)) (rc_queue r)))%nat).
    { clear S1. induction (rc_queue r) as [|p' q IH]; [contradiction|]. cbn [map sum fold_right]. unfold sum in IH.
      destruct I1 as [I1|I1].
      - subst p'. rewrite I2.
        assert (S3 : (fold_right Nat.add 0 (map (fun p => future t (pg_end p)) q) <= fold_right Nat.add 0 (map (fun p => future now (pg_end p)) q))%nat).
        { clear IH. induction q as [|p' q IH]; cbn [map fold_right]; [lia|]. pose proof (future_later now t (pg_end p') ltac:(lia)). lia. }
        rewrite future_self, (future_now now t L). lia.
      - specialize (IH I1). pose proof (future_later now t (pg_end p') ltac:(lia)). lia. }
    destruct (rc_sleep r) as [[x a]|]; [|lia]. pose proof (future_later now t (Some x) ltac:(lia)). lia.
Qed.

(** ** The run *)
Lemma live_ok l : forall fuel now pre r, inv now l pre r -> (ahead now r < fuel)%nat ->
  match live fuel now r with LEnd _ w => verdict l = Some w | LNever => verdict l = None | LOut => False end.
Proof.
  induction fuel as [|f IH]; intros now pre r V A; [lia|]. cbn [live].
  pose proof (poll_ok now l pre r V) as P. destruct (race_poll now r) as [r'|w r'|] eqn:R.
  - destruct P as [pre' [V' W']]. pose proof (ahead_next _ _ _ _ R) as A'. destruct (earliest (events now r')) as [t|] eqn:E.
    + destruct (ahead_later _ _ _ E) as [L M]. apply (IH t pre'); [apply (inv_later now); [lia|exact V']|]. lia.
    + apply earliest_none in E. unfold waits in W'. destruct (rc_queue r') as [|p q] eqn:Q.
      * destruct W' as [t [a [W1 W2]]]. assert (X : In t (events now r')) by (apply event_in; split; [exact W2|left; eauto]). now rewrite E in X.
      * assert (X : pg_end p = None).
        { destruct (pg_end p) as [t|] eqn:T; [|reflexivity]. unfold ended in W'. rewrite T in W'.
          assert (X : In t (events now r')) by (apply event_in; split; [lia|right; exists p; split; [rewrite Q; now left|exact T]]). now rewrite E in X. }
        pose proof (iv_faith _ _ _ _ V') as F. rewrite Q in F. apply (Forall_inv F) in X.
        rewrite (iv_line _ _ _ _ V'), verdict_pre by exact (iv_pre _ _ _ _ V'). unfold line. rewrite Q. cbn. now rewrite X.
  - exact (proj1 P).
  - contradiction.
Qed.
Theorem run_outcome l :
  match race_run l with LEnd _ w => verdict l = Some w | LNever => verdict l = None | LOut => False end.
Proof. apply (live_ok l _ 0 []); [apply inv_new|]. unfold ahead, race_new; cbn [rc_left rc_sleep rc_queue map sum fold_right]. lia. Qed.
