(** Proofs about listeners. *)
From Coq Require Import NArith List Bool Lia Permutation.
From Coq Require Import ZArith ZifyBool ZifyNat ZifyN.
From Verif.Model Require Import MainTask Events.
From Verif.Spec Require Import EventsSpec.
Import ListNotations.
Local Open Scope N_scope.

(** ** Reading *)
Lemma added_app h o : added (h ++ o) = added h ++ added o.
Proof. apply flat_map_app. Qed.
Lemma seen_app l h o : seen l (h ++ o) = seen l h ++ seen l o.
Proof. apply flat_map_app. Qed.
Lemma exp_fst l h : fst (fold_left (expected_step l) h (false, [])) = existsb (N.eqb l) (added h).
Proof.
  induction h as [|x h IH] using rev_ind; [reflexivity|]. rewrite fold_left_app, added_app, existsb_app, <- IH. cbn [fold_left].
  destruct x; cbn; rewrite ?orb_false_r; reflexivity.
Qed.
Lemma exp_snoc l h x : expected l (h ++ [x]) =
  match x with AChange c => if existsb (N.eqb l) (added h) then expected l h ++ [c] else expected l h | _ => expected l h end.
Proof.
  unfold expected. rewrite fold_left_app. cbn [fold_left]. destruct x; cbn [expected_step snd]; try reflexivity. rewrite exp_fst. reflexivity.
Qed.
Lemma going_snoc h x : going (h ++ [x]) = going_step (going h) x.
Proof. unfold going. now rewrite fold_left_app. Qed.
Lemma one_from_app h : forall n o, one_by_one_from n (h ++ o) = one_by_one_from n h && one_by_one_from (fold_left going_step h n) o.
Proof. induction h as [|x h IH]; intros n o; [reflexivity|]. cbn [app one_by_one_from fold_left]. rewrite IH. now rewrite andb_assoc. Qed.
Lemma one_snoc h x : one_by_one (h ++ [x]) = one_by_one h && match x with AChange _ => Nat.eqb (going h) 0 | _ => true end.
Proof. unfold one_by_one. rewrite one_from_app. cbn [one_by_one_from]. now rewrite andb_true_r. Qed.

Lemma ss_refl {A} (p : list A) : subseq p p.
Proof. induction p; constructor; assumption. Qed.
Lemma ss_app {A} (p q p' q' : list A) : subseq p q -> subseq p' q' -> subseq (p ++ p') (q ++ q').
Proof. intros H1 H2. induction H1; cbn [app]; [exact H2| |]; now constructor. Qed.
Lemma ss_right {A} (p q r : list A) : subseq p q -> subseq p (q ++ r).
Proof.
  intros H. rewrite <- (app_nil_r p). apply ss_app; [exact H|]. induction r; constructor; assumption.
Qed.

(** ** Holders *)
Definition call_list (k : option call) : list N := match k with Some k => cl_todo k ++ cl_done k | None => [] end.
Definition holders (a : appctx) : list N := a_listeners a ++ flat_map call_list (a_calls a).

Lemma update_split {A} n (x y : A) l : nth_error l n = Some x ->
  exists l1 l2, l = l1 ++ x :: l2 /\ update_nth n y l = l1 ++ y :: l2 /\ length l1 = n.
Proof.
  revert n. induction l as [|z l IH]; intros [|n] H; try discriminate; cbn in H.
  - injection H as ->. exists [], l. auto.
  - destruct (IH n H) as (l1 & l2 & -> & E & L). exists (z :: l1), l2. cbn. rewrite E, L. auto.
Qed.
Definition in_todo (l : N) (a : appctx) (c : change) : Prop := exists k, In (Some k) (a_calls a) /\ In l (cl_todo k) /\ cl_change k = c.

Definition live (a : appctx) : nat := length (filter (fun k => match k with Some _ => true | None => false end) (a_calls a)).

Record einv (a : appctx) (h : list eobs) : Prop := {
  e_holders : Permutation (holders a) (added h);
  e_sub : forall l, subseq (seen l h) (expected l h);
  e_todo : forall l c, in_todo l a c -> exists e1 e2, expected l h = e1 ++ c :: e2 /\ subseq (seen l h) e1;
  e_going : going h = live a;
  e_alone : one_by_one h = true -> (live a <= 1)%nat /\
            forall l, In l (added h) -> (exists c, in_todo l a c /\ expected l h = seen l h ++ [c]) \/ seen l h = expected l h
}.

Lemma holders_split a l1 k l2 : a_calls a = l1 ++ Some k :: l2 ->
  Permutation (holders a) ((cl_todo k ++ cl_done k) ++ a_listeners a ++ flat_map call_list (l1 ++ l2)).
Proof.
  intros E. unfold holders. rewrite E, !flat_map_app. cbn [flat_map call_list].
  rewrite (app_assoc (a_listeners a)), (app_assoc (a_listeners a) (flat_map call_list l1) (flat_map call_list l2)).
  apply Permutation_app_swap_app.
Qed.
Lemma in_calls_holders a k l : In (Some k) (a_calls a) -> In l (cl_todo k ++ cl_done k) -> In l (holders a).
Proof. intros H1 H2. apply in_or_app. right. apply in_flat_map. exists (Some k). auto. Qed.
Lemma added_exists l h : In l (added h) -> existsb (N.eqb l) (added h) = true.
Proof. intros H. apply existsb_exists. exists l. split; [exact H|apply N.eqb_refl]. Qed.

Lemma live_mid c l s m1 k m2 :
  live {| a_connection := c; a_scanning := s; a_listeners := l; a_calls := m1 ++ k :: m2 |} =
  (live {| a_connection := c; a_scanning := s; a_listeners := l; a_calls := m1 ++ m2 |} + match k with Some _ => 1 | None => 0 end)%nat.
Proof. unfold live. cbn [a_calls]. rewrite !filter_app, !app_length. cbn [filter]. destruct k; cbn [length]; lia. Qed.
Lemma live_ext a b : a_calls a = a_calls b -> live a = live b.
Proof. unfold live. now intros ->. Qed.
Lemma live_zero a k : live a = 0%nat -> ~ In (Some k) (a_calls a).
Proof.
  unfold live. intros H Hin. assert (X : In (Some k) (filter (fun k => match k with Some _ => true | None => false end) (a_calls a))).
  { apply filter_In. auto. }
  destruct (filter _ _); [destruct X|discriminate].
Qed.

Lemma estep a h e a' o :
  einv a h -> app_step a e = (a', o) -> NoDup (added (h ++ o)) -> einv a' (h ++ o).
Proof.
  intros I. assert (Hsame : forall a2 o2, (a, []) = (a2, o2) -> NoDup (added (h ++ o2)) -> einv a2 (h ++ o2)).
  { intros a2 o2 [= <- <-] _. now rewrite app_nil_r. }
  destruct I as [I1 I2 I3 I4 I5]. destruct e as [c|n|n|l]; cbn [app_step].
  - (* a change *)
    destruct (unchanged a c); [apply Hsame|]. intros [= <- <-] Hnd. rewrite added_app in Hnd. cbn in Hnd. rewrite app_nil_r in Hnd.
    assert (Hseen : forall l, seen l (h ++ [AChange c]) = seen l h) by (intros l; rewrite seen_app; apply app_nil_r).
    assert (Hreg : forall l, In l (holders a) -> existsb (N.eqb l) (added h) = true).
    { intros l Hl. apply added_exists. exact (Permutation_in _ I1 Hl). }
    split.
    + rewrite added_app. cbn. rewrite app_nil_r. unfold holders in *. cbn [a_listeners a_calls app]. rewrite flat_map_app. cbn.
      rewrite !app_nil_r. rewrite Permutation_app_comm. exact I1.
    + intros l. rewrite Hseen, exp_snoc. destruct (existsb _ _); [apply ss_right|]; apply I2.
    + intros l c' (k & Hk & Hl & Hc). cbn [a_calls] in Hk. rewrite Hseen, exp_snoc. apply in_app_or in Hk as [Hk|[[= <-]|[]]].
      * rewrite (Hreg l (in_calls_holders a k l Hk (in_or_app _ _ _ (or_introl Hl)))).
        destruct (I3 l c') as (e1 & e2 & -> & S); [exists k; auto|]. exists e1, (e2 ++ [c]). split; [now rewrite <- app_assoc|exact S].
      * cbn in Hl, Hc. subst c'. rewrite (Hreg l) by (apply in_or_app; now left). exists (expected l h), []. split; [reflexivity|apply I2].
    + rewrite going_snoc. cbn [going_step]. rewrite I4. unfold live. cbn [a_calls]. rewrite filter_app, app_length. cbn. lia.
    + rewrite one_snoc. intros H. apply andb_true_iff in H as [H1 H2]. apply Nat.eqb_eq in H2. destruct (I5 H1) as [_ I5'].
      rewrite I4 in H2. split; [unfold live in *; cbn [a_calls]; rewrite filter_app, app_length; cbn; lia|].
      intros l Hl. rewrite added_app in Hl. cbn in Hl. rewrite app_nil_r in Hl. left. exists c. rewrite Hseen, exp_snoc, (added_exists _ _ Hl).
      destruct (I5' l Hl) as [(c' & (k & Hk & _) & _)|E]; [exfalso; exact (live_zero a k H2 Hk)|]. split; [|now rewrite E].
      exists {| cl_change := c; cl_todo := a_listeners a; cl_done := [] |}. cbn [a_calls cl_todo cl_change].
      split; [apply in_or_app; right; now left|]. split; [|reflexivity].
      apply (Permutation_in _ (Permutation_sym I1)) in Hl. apply in_app_or in Hl as [Hl|Hl]; [exact Hl|].
      apply in_flat_map in Hl as ([k|] & Hk & Hin); [exfalso; exact (live_zero a k H2 Hk)|destruct Hin].
  - (* a notification *)
    destruct (nth_error (a_calls a) n) as [[k|]|] eqn:En; try apply Hsame. destruct (cl_todo k) as [|l todo] eqn:Et; [apply Hsame|].
    set (k' := {| cl_change := cl_change k; cl_todo := todo; cl_done := cl_done k ++ [l] |}).
    destruct (update_split n _ (Some k') _ En) as (m1 & m2 & Ec & Eu & Ln). rewrite Eu. intros [= <- <-] Hnd.
    rewrite added_app in Hnd. cbn in Hnd. rewrite app_nil_r in Hnd.
    assert (Hexp : forall l', expected l' (h ++ [ANotified l (cl_change k)]) = expected l' h) by (intros l'; apply exp_snoc).
    assert (Hseen : forall l', seen l' (h ++ [ANotified l (cl_change k)]) = if l' =? l then seen l' h ++ [cl_change k] else seen l' h).
    { intros l'. rewrite seen_app. cbn. destruct (l' =? l); cbn; [reflexivity|now rewrite app_nil_r]. }
    assert (Hin : in_todo l a (cl_change k)).
    { exists k. rewrite Ec, Et. split; [apply in_or_app; right; now left|]. split; [now left|reflexivity]. }
    pose proof (holders_split a m1 k m2 Ec) as Hh. rewrite Et in Hh.
    assert (Hnd2 : NoDup ((l :: todo ++ cl_done k) ++ a_listeners a ++ flat_map call_list (m1 ++ m2))).
    { apply (Permutation_NoDup Hh). apply (Permutation_NoDup (Permutation_sym I1)). exact Hnd. }
    cbn [app] in Hnd2. apply NoDup_cons_iff in Hnd2 as [Hl _]. rewrite <- app_assoc in Hl.
    split.
    + rewrite added_app. cbn [added flat_map]. rewrite app_nil_r. rewrite <- I1, Hh.
      etransitivity; [apply (holders_split _ m1 k' m2); reflexivity|]. cbn [cl_todo cl_done k' a_listeners]. apply Permutation_app_tail.
      rewrite app_assoc. cbn [app]. apply Permutation_sym, Permutation_cons_append.
    + intros l'. rewrite Hexp, Hseen. destruct (N.eqb_spec l' l) as [->|]; [|apply I2].
      destruct (I3 _ _ Hin) as (e1 & e2 & -> & S). apply ss_app; [exact S|]. constructor. induction e2; constructor; assumption.
    + intros l' c (k2 & Hk & Hl' & Hc). cbn [a_calls] in Hk. rewrite Hexp, Hseen.
      assert (Hold : In l' (cl_todo k2) -> (k2 = k' \/ In (Some k2) (m1 ++ m2)) -> l' <> l).
      { intros X [->|Y] ->; apply Hl.
        - apply in_or_app. left. exact X.
        - apply in_or_app. right. apply in_or_app. right. apply in_or_app. right. apply in_flat_map. exists (Some k2). split; [exact Y|].
          apply in_or_app. now left. }
      assert (Hk2 : k2 = k' \/ In (Some k2) (m1 ++ m2)).
      { apply in_app_or in Hk as [Hk|[[= <-]|Hk]]; [right|left|right]; try (apply in_or_app); auto. }
      destruct (N.eqb_spec l' l) as [->|_]; [now apply (Hold Hl') in Hk2|].
      apply I3. destruct Hk2 as [->|Hk2].
      * exists k. rewrite Ec, Et. split; [apply in_or_app; right; now left|]. split; [right; exact Hl'|exact Hc].
      * exists k2. rewrite Ec. split; [|auto]. apply in_app_or in Hk2 as [Hk2|Hk2]; apply in_or_app; [left|right; right]; exact Hk2.
    + rewrite going_snoc. cbn [going_step]. rewrite I4. unfold live. rewrite Ec. cbn [a_calls]. rewrite !filter_app, !app_length. cbn. lia.
    + rewrite one_snoc, andb_true_r. intros H1. destruct (I5 H1) as [L5 I5']. split.
      * unfold live in *. rewrite Ec in L5. cbn [a_calls] in *. rewrite !filter_app, !app_length in *. cbn in *. lia.
      * intros l' Ha. rewrite added_app in Ha. cbn in Ha. rewrite app_nil_r in Ha. rewrite Hexp, Hseen.
        destruct (N.eqb_spec l' l) as [->|Hne].
        -- right. destruct (I5' l Ha) as [(c & (k2 & Hk & Hl' & Hc) & ->)|E].
           ++ (* the same call *) f_equal. f_equal. rewrite <- Hc.
              assert (k2 = k) as ->; [|reflexivity]. rewrite Ec in Hk. apply in_app_or in Hk as [Hk|[[= <-]|Hk]]; [|reflexivity|]; exfalso; apply Hl;
                (apply in_or_app; right; apply in_or_app; right; apply in_or_app; right; apply in_flat_map; exists (Some k2);
                 split; [apply in_or_app; auto|apply in_or_app; now left]).
           ++ exfalso. destruct (I3 _ _ Hin) as (e1 & e2 & X & S). rewrite E, X in S. clear -S.
              assert (L : forall (p q : list change), subseq p q -> (length p <= length q)%nat).
              { intros p q Hs. induction Hs; cbn; lia. }
              apply L in S. rewrite app_length in S. cbn in S. lia.
        -- destruct (I5' l' Ha) as [(c & (k2 & Hk & Hl' & Hc) & E)|E]; [left|right; exact E]. exists c. split; [|exact E].
           rewrite Ec in Hk. apply in_app_or in Hk as [Hk|[[= <-]|Hk]].
           ++ exists k2. cbn [a_calls]. split; [apply in_or_app; now left|auto].
           ++ exists k'. cbn [a_calls k' cl_todo cl_change]. split; [apply in_or_app; right; now left|]. rewrite Et in Hl'.
              destruct Hl' as [Hl'|Hl']; [congruence|]. auto.
           ++ exists k2. cbn [a_calls]. split; [apply in_or_app; right; now right|auto].
  - (* a return *)
    destruct (nth_error (a_calls a) n) as [[k|]|] eqn:En; try apply Hsame. destruct (cl_todo k) as [|l todo] eqn:Et; [|apply Hsame].
    destruct (update_split n _ None _ En) as (m1 & m2 & Ec & Eu & Ln). rewrite Eu. intros [= <- <-] Hnd.
    assert (Hexp : forall l', expected l' (h ++ [AReturned]) = expected l' h) by (intros l'; apply exp_snoc).
    assert (Hseen : forall l', seen l' (h ++ [AReturned]) = seen l' h) by (intros l'; rewrite seen_app; apply app_nil_r).
    assert (Hsub : forall l' c, in_todo l' {| a_connection := a_connection a; a_scanning := a_scanning a;
        a_listeners := cl_done k ++ a_listeners a; a_calls := m1 ++ None :: m2 |} c -> in_todo l' a c).
    { intros l' c (k2 & Hk & R). exists k2. split; [|exact R]. rewrite Ec. cbn [a_calls] in Hk.
      apply in_app_or in Hk as [Hk|[Hk|Hk]]; [| |]; try discriminate; apply in_or_app; [left|right; right]; exact Hk. }
    split.
    + rewrite added_app. cbn. rewrite app_nil_r, <- I1. rewrite (holders_split a m1 k m2 Ec), Et. unfold holders. cbn [a_listeners a_calls app].
      rewrite !flat_map_app. cbn. now rewrite <- app_assoc.
    + intros l'. rewrite Hexp, Hseen. apply I2.
    + intros l' c Hx. rewrite Hexp, Hseen. apply I3, Hsub, Hx.
    + rewrite going_snoc. cbn [going_step]. rewrite I4. unfold live. rewrite Ec. cbn [a_calls]. rewrite !filter_app, !app_length. cbn. lia.
    + rewrite one_snoc, andb_true_r. intros H1. destruct (I5 H1) as [L5 I5']. split.
      * unfold live in *. rewrite Ec in L5. cbn [a_calls] in *. rewrite !filter_app, !app_length in *. cbn in *. lia.
      * intros l' Ha. rewrite added_app in Ha. cbn in Ha. rewrite app_nil_r in Ha. rewrite Hexp, Hseen.
        destruct (I5' l' Ha) as [(c & (k2 & Hk & Hl' & Hc) & E)|E]; [left|right; exact E]. exists c. split; [|exact E].
        rewrite Ec in Hk. exists k2. cbn [a_calls]. split; [|auto]. apply in_app_or in Hk as [Hk|[[= <-]|Hk]].
        -- apply in_or_app. now left.
        -- rewrite Et in Hl'. destruct Hl'.
        -- apply in_or_app. right. now right.
  - (* a registration *)
    intros [= <- <-] Hnd. rewrite added_app in Hnd. cbn in Hnd.
    assert (Hexp : forall l', expected l' (h ++ [AAdded l]) = expected l' h) by (intros l'; apply exp_snoc).
    assert (Hseen : forall l', seen l' (h ++ [AAdded l]) = seen l' h) by (intros l'; rewrite seen_app; apply app_nil_r).
    assert (Hnot : ~ In l (added h)).
    { intros X. apply NoDup_remove_2 in Hnd. apply Hnd. rewrite app_nil_r. exact X. }
    assert (Hexp0 : forall h, ~ In l (added h) -> expected l h = []).
    { clear. induction h as [|x h IH] using rev_ind; [reflexivity|]. rewrite added_app, exp_snoc. intros X.
      assert (Y : ~ In l (added h)) by (intros Y; apply X, in_or_app; now left). specialize (IH Y).
      destruct x; try exact IH. destruct (existsb (N.eqb l) (added h)) eqn:E; [|exact IH].
      apply existsb_exists in E as (z & Hz & E). apply N.eqb_eq in E. subst z. contradiction. }
    split.
    + rewrite added_app. cbn [added flat_map app]. unfold holders in *. cbn [a_listeners a_calls]. rewrite <- app_assoc.
      rewrite (Permutation_app_comm [l]), app_assoc. now rewrite I1.
    + intros l'. rewrite Hexp, Hseen. apply I2.
    + intros l' c Hx. rewrite Hexp, Hseen. apply I3. exact Hx.
    + rewrite going_snoc. exact I4.
    + rewrite one_snoc, andb_true_r. intros H1. destruct (I5 H1) as [L5 I5']. split; [exact L5|].
      intros l' Ha. rewrite Hexp, Hseen. rewrite added_app in Ha. apply in_app_or in Ha as [Ha|[<-|[]]]; [exact (I5' l' Ha)|].
      right. pose proof (I2 l) as S. rewrite (Hexp0 h Hnot) in *. inversion S. reflexivity.
Qed.

Lemma NoDup_prefix {A} (p q : list A) : NoDup (p ++ q) -> NoDup p.
Proof.
  induction p as [|x p IH]; intros H; [constructor|]. apply NoDup_cons_iff in H as [H1 H2]. constructor; [|auto].
  intros X. apply H1, in_or_app. now left.
Qed.
Lemma erun es : forall a h a' o, einv a h -> app_run a es = (a', o) -> NoDup (added (h ++ o)) -> einv a' (h ++ o).
Proof.
  induction es as [|e es IH]; intros a h a' o I; cbn [app_run].
  - intros [= <- <-] _. now rewrite app_nil_r.
  - destruct (app_step a e) as [a1 o1] eqn:E1. destruct (app_run a1 es) as [a2 o2] eqn:E2. intros [= <- <-]. rewrite app_assoc.
    intros Hnd. eapply IH; [|exact E2|exact Hnd]. apply (estep a h e); [exact I|exact E1|]. rewrite added_app in Hnd. exact (NoDup_prefix _ _ Hnd).
Qed.
Lemma enew : einv appctx_new [].
Proof.
  split; cbn; try easy; try constructor.
  - intros l c (k & [] & _).
  - lia.
  - intros l [].
Qed.
Lemma events_inv es a h : app_run appctx_new es = (a, h) -> NoDup (added h) -> einv a h.
Proof. intros H Hn. exact (erun es _ [] _ _ enew H Hn). Qed.

Lemma in_order es a h l : app_run appctx_new es = (a, h) -> NoDup (added h) -> subseq (seen l h) (expected l h).
Proof. intros H Hn. exact (e_sub _ _ (events_inv _ _ _ H Hn) l). Qed.
Lemma complete es a h l :
  app_run appctx_new es = (a, h) -> NoDup (added h) -> one_by_one h = true -> In l (added h) ->
  (seen l h = expected l h \/ exists c, going h = 1%nat /\ expected l h = seen l h ++ [c]) /\
  (going h = 0%nat -> seen l h = expected l h).
Proof.
  intros H Hn Ho Hl. pose proof (events_inv _ _ _ H Hn) as I. destruct (e_alone _ _ I Ho) as [L A]. rewrite (e_going _ _ I).
  destruct (A l Hl) as [(c & (k & Hk & _) & E)|E]; [|auto].
  assert (live a <> 0%nat) by (intros X; exact (live_zero _ _ X Hk)). split; [right; exists c; split; [lia|exact E]|]. congruence.
Qed.

(** Two threads. *)
Lemma lost :
  exists es a h l, app_run appctx_new es = (a, h) /\ NoDup (added h) /\ In l (added h) /\ going h = 0%nat /\
    length (seen l h) = 1%nat /\ length (expected l h) = 2%nat.
Proof.
  exists [EvAdd 7; EvSet (ChConnection Connected); EvSet (ChScanner true); EvNotify 0; EvReturn 0; EvReturn 1].
  do 2 eexists. exists 7. split; [reflexivity|]. split; [repeat constructor; easy|]. split; [left; reflexivity|]. repeat split.
Qed.
