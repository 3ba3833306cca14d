(** Proofs about the background tasks. *)
From Coq Require Import NArith ZArith List Bool Lia ZifyBool ZifyNat ZifyN.
From Verif.Model Require Import Client Background.
From Verif.Spec Require Import ClientSpec BackgroundSpec.
Import ListNotations.
Local Open Scope N_scope.

(** Reading *)
Lemma going_app h o : scans_going (h ++ o) =
  fold_left (fun l x => match x with
                        | OStart _ _ id => id :: l
                        | OGone _ id | OCrash id => filter (fun y => negb (y =? id)) l
                        | _ => l
                        end) o (scans_going h).
Proof. unfold scans_going. now rewrite fold_left_app. Qed.
Lemma crashed_app h o : crashed (h ++ o) = crashed h || crashed o.
Proof. unfold crashed. now rewrite existsb_app. Qed.
Lemma reported_sc_app h o : reported_scanning (h ++ o) = fold_left (fun s x => match x with OScanning s' => s' | _ => s end) o (reported_scanning h).
Proof. unfold reported_scanning. now rewrite fold_left_app. Qed.

Definition completions (q : list hevent) : nat :=
  length (filter (fun e => match e with HScanCompleted => true | _ => false end) q).
Lemma completions_app p q : completions (p ++ q) = (completions p + completions q)%nat.
Proof. unfold completions. now rewrite filter_app, app_length. Qed.

Definition old (n : nat) (x : N * tphase) : Prop := fst x < N.of_nat n /\ snd x = ThGone.

(** The scanner and its threads; [tmax] bounds the times so far. *)
Definition threads_ok (b : bg) (h : list bobs) (tmax : Z) : Prop :=
  match b_scanner b with
  | None =>
      Forall (old (length (b_threads b))) (b_threads b) /\ (b_feature b = true -> completions (b_queue b) = 0%nat) /\
      scans_going h = [] /\ b_scanning b = false /\ crashed h = false /\
      (forall t id, In (OGone t id) h -> exists l, b_last b = Some l /\ (t <= l)%Z)
  | Some id =>
      exists p rest, b_threads b = (id, p) :: rest /\ id = N.of_nat (length rest) /\ Forall (old (length rest)) rest /\
        completions (b_queue b) = match p with ThGone => 1%nat | _ => 0%nat end /\
        scans_going h = (if alive p then [id] else []) /\
        (p <> ThCrashed -> b_scanning b = match p with ThScanning => true | _ => false end) /\
        crashed h = match p with ThCrashed => true | _ => false end
  end.

Record binv (f d : bool) (b : bg) (h : list bobs) (tmax : Z) : Prop := {
  n_feature : b_feature b = f;
  n_discovery : b_discovery b = d;
  n_handler : b_handler b = true;
  n_threads : threads_ok b h tmax;
  n_none : f = false -> b_scanner b = None /\ b_threads b = [];
  n_past : forall t id, In (OGone t id) h -> (t <= tmax)%Z;
  n_last : forall l, b_last b = Some l -> (l <= tmax)%Z;
  n_scanning : b_scanning b = reported_scanning h;
  n_join : forall id r, In (OJoin id r) h -> r = false;
  n_whole : ~ In OBroken h
}.

Lemma old_weaken n m x : (n <= m)%nat -> old n x -> old m x.
Proof. intros H [A B]. split; [lia|exact B]. Qed.
Lemma find_head id p rest : thread_phase id ((id, p) :: rest) = p.
Proof. unfold thread_phase. cbn [find fst]. now rewrite N.eqb_refl. Qed.
Lemma find_other l : forall n id, Forall (old n) l -> thread_phase id l = ThGone.
Proof.
  induction l as [|[i p] l IH]; intros n id H; [reflexivity|]. apply Forall_cons_iff in H as [[H1 H2] H]. cbn in *. subst p.
  unfold thread_phase in *. cbn [find fst]. destruct (i =? id); [reflexivity|]. exact (IH n id H).
Qed.
Lemma set_old l n id p : Forall (old n) l -> N.of_nat n <= id -> set_thread id p l = l.
Proof.
  induction l as [|[i q] l IH]; intros H L; [reflexivity|]. apply Forall_cons_iff in H as [[H1 H2] H]. cbn in *.
  unfold set_thread in *. cbn [map fst]. destruct (N.eqb_spec i id); [lia|]. f_equal. auto.
Qed.
Lemma phase_id b h tmax f d id :
  binv f d b h tmax -> alive (thread_phase id (b_threads b)) = true -> b_scanner b = Some id.
Proof.
  intros I H. pose proof (n_threads _ _ _ _ _ I) as T. unfold threads_ok in T. destruct (b_scanner b) as [i|].
  - destruct T as (p & rest & E & Ei & Ho & _). f_equal. rewrite E in H. unfold thread_phase in H. cbn [find fst] in H.
    destruct (N.eqb_spec i id) as [->|]; [reflexivity|]. fold (thread_phase id rest) in H. rewrite (find_other _ _ _ Ho) in H. discriminate.
  - destruct T as (Ho & _). rewrite (find_other _ _ _ Ho) in H. discriminate.
Qed.

Lemma push_alive b e : b_handler b = true -> push b e = (set_queue b (b_queue b ++ [e]), []).
Proof. intros H. unfold push. now rewrite H. Qed.

Lemma new_binv f d t0 : binv f d (bg_new f d) [] t0.
Proof.
  split; cbn; try reflexivity; try easy.
Qed.

(** Pushing a command. *)
Lemma push_command f d b h t0 c b' o : binv f d b h t0 -> push b (HCommand c) = (b', o) -> binv f d b' (h ++ o) t0.
Proof.
  intros I. rewrite (push_alive _ _ (n_handler _ _ _ _ _ I)). intros [= <- <-]. rewrite app_nil_r.
  destruct I as [I1 I2 I3 I4 I5 I6 I7 I8 I9 I10]. split; try assumption.
  unfold threads_ok in *. cbn [set_queue b_scanner b_threads b_queue b_feature b_scanning b_last]. rewrite completions_app.
  change (completions [HCommand c]) with 0%nat. now rewrite Nat.add_0_r.
Qed.

Lemma in_snoc_other {A} (x y : A) l : x <> y -> In x (l ++ [y]) -> In x l.
Proof. intros H Hi. apply in_app_or in Hi as [Hi|[Hi|[]]]; congruence. Qed.

Lemma quiet_obs f d b h t0 x :
  binv f d b h t0 -> match x with OReset => True | OJoin _ false => True | _ => False end -> binv f d b (h ++ [x]) t0.
Proof.
  intros [I1 I2 I3 I4 I5 I6 I7 I8 I9 I10] Hx.
  assert (Hg : scans_going (h ++ [x]) = scans_going h) by (rewrite going_app; destruct x as [| | |? []| | |]; easy).
  assert (Hc : crashed (h ++ [x]) = crashed h) by (rewrite crashed_app; destruct x as [| | |? []| | |]; try easy; apply orb_false_r).
  assert (Hr : reported_scanning (h ++ [x]) = reported_scanning h) by (rewrite reported_sc_app; destruct x as [| | |? []| | |]; easy).
  assert (Hgo : forall t id, In (OGone t id) (h ++ [x]) -> In (OGone t id) h).
  { intros t id. apply in_snoc_other. destruct x as [| | |? []| | |]; try easy. }
  split; try assumption.
  - unfold threads_ok in *. destruct (b_scanner b) as [i|].
    + destruct I4 as (p & rest & A). exists p, rest. now rewrite Hg, Hc.
    + rewrite Hg, Hc. destruct I4 as (A1 & A2 & A3 & A4 & A5 & A6). repeat split; auto. intros t id H. apply (A6 t id), Hgo, H.
  - intros t id H. apply (I6 t id), Hgo, H.
  - congruence.
  - intros id r H. apply in_app_or in H as [H|[H|[]]]; [eauto|]. subst x. destruct r; easy.
  - intros H. apply in_app_or in H as [H|[H|[]]]; [auto|]. subst x. easy.
Qed.

Lemma grow f d b h t0 t1 : (t0 <= t1)%Z -> binv f d b h t0 -> binv f d b h t1.
Proof.
  intros L [I1 I2 I3 I4 I5 I6 I7 I8 I9 I10]. split; try assumption.
  - intros t id H. specialize (I6 t id H). lia.
  - intros l H. specialize (I7 l H). lia.
Qed.

(** What happens when a scan is requested. *)
Lemma scan_inv f d b h t0 t p b' o :
  binv f d b h t0 -> scan_network b t p = (b', o) ->
  binv f d b' (h ++ o) t0 /\
  (forall t' p' id, In (OStart t' p' id) o -> t' = t /\ p' = p /\ o = [OStart t p id] /\ scans_going h = [] /\ b_scanner b = None).
Proof.
  intros I. unfold scan_network. destruct (b_feature b) eqn:Ef.
  - destruct (b_scanner b) as [i|] eqn:Es.
    + rewrite orb_true_r. intros [= <- <-]. rewrite app_nil_r. split; [exact I|easy].
    + rewrite orb_false_r. destruct (b_discovery b); [|intros [= <- <-]; rewrite app_nil_r; split; [exact I|easy]].
      cbn [negb]. intros [= <- <-]. pose proof (n_threads _ _ _ _ _ I) as T. unfold threads_ok in T. rewrite Es in T.
      destruct T as (T1 & T2 & T3 & T4 & T5 & T6).
      destruct I as [I1 I2 I3 I4 I5 I6 I7 I8 I9 I10].
      split; [split; try assumption|].
      * unfold threads_ok. cbn [set_threads set_scanner b_scanner b_threads b_queue b_scanning]. exists ThNew, (b_threads b).
        split; [reflexivity|]. split; [reflexivity|]. split; [exact T1|]. split; [apply T2, Ef|]. rewrite going_app, T3, crashed_app, T5.
        repeat split. intros _. exact T4.
      * intros ->. congruence.
      * intros t' id' Hin. apply in_snoc_other in Hin; [eauto|discriminate].
      * rewrite reported_sc_app. exact I8.
      * intros id' r Hin. apply in_snoc_other in Hin; [eauto|discriminate].
      * intros Hin. apply in_snoc_other in Hin; [auto|discriminate].
      * intros t' p' id' [[= <- <- <-]|[]]. repeat split; assumption.
  - rewrite (push_alive _ _ (n_handler _ _ _ _ _ I)). intros [= <- <-]. rewrite app_nil_r. split; [|easy].
    destruct I as [I1 I2 I3 I4 I5 I6 I7 I8 I9 I10]. split; try assumption. subst f. destruct (I5 Ef) as [Es Et].
    unfold threads_ok in *. cbn [set_queue b_scanner b_threads b_queue b_feature b_scanning b_last]. rewrite Es in *.
    destruct I4 as (A1 & A2 & A3). repeat split; try tauto. congruence.
Qed.

Lemma completed_inv f d b h t0 t b' o q :
  binv f d b h t0 -> (t0 <= t)%Z -> b_queue b = HScanCompleted :: q ->
  scan_completed (set_queue b q) t = (b', o) -> binv f d b' (h ++ o) t /\ forall t' p' id, ~ In (OStart t' p' id) o.
Proof.
  intros I L Eq. pose proof (n_threads _ _ _ _ _ I) as T. unfold threads_ok in T. unfold scan_completed.
  cbn [set_queue b_scanner b_threads]. destruct (b_scanner b) as [i|] eqn:Es.
  - destruct T as (p & rest & E & Ei & Ho & Hc & Hg & Hs & Hcr). rewrite Eq in Hc.
    assert (p = ThGone) as ->.
    { destruct p; try discriminate Hc. reflexivity. }
    rewrite E, find_head. cbn [alive]. intros [= <- <-]. split; [|intros t' p' id [H|[]]; discriminate].
    apply quiet_obs; [|exact Logic.I]. apply (grow _ _ _ _ t0 t L) in I. destruct I as [I1 I2 I3 I4 I5 I6 I7 I8 I9 I10].
    split; try assumption.
    + unfold threads_ok. cbn [set_scanner set_queue b_scanner b_threads b_queue b_feature b_scanning b_last]. rewrite E.
      split; [|split; [|split; [exact Hg|split; [apply Hs; discriminate|split; [exact Hcr|]]]]].
      * constructor; [split; cbn; [lia|reflexivity]|]. eapply Forall_impl; [|exact Ho]. intros x. apply old_weaken. cbn. lia.
      * intros _. unfold completions in *. cbn [filter] in Hc. cbn in Hc. lia.
      * intros t' id Hin. exists t. split; [reflexivity|]. eauto.
    + intros ->. destruct (I5 eq_refl) as [X _]. congruence.
    + intros l [= <-]. lia.
  - intros [= <- <-]. split; [|intros t' p' id []]. rewrite app_nil_r.
    destruct T as (T1 & T2 & T3 & T4 & T5 & T6). apply (grow _ _ _ _ t0 t L) in I. destruct I as [I1 I2 I3 I4 I5 I6 I7 I8 I9 I10].
    split; try assumption.
    + unfold threads_ok. cbn [set_scanner set_queue b_scanner b_threads b_queue b_feature b_scanning b_last].
      repeat split; try assumption.
      * intros F. specialize (T2 F). rewrite Eq in T2. discriminate.
      * intros t' id Hin. exists t. split; [reflexivity|]. eauto.
    + intros F. cbn. split; [reflexivity|]. now apply I5.
    + intros l [= <-]. lia.
Qed.

Lemma thread_inv f d b h t0 t1 id s b' o :
  binv f d b h t0 -> (t0 <= t1)%Z -> match s with SReport t => t = t1 | _ => True end ->
  thread_step b id s = (b', o) -> binv f d b' (h ++ o) t1 /\ forall t' p' id', ~ In (OStart t' p' id') o.
Proof.
  intros I L Ht. unfold thread_step. cbv zeta.
  assert (Hsame : forall b2 o2, (b, []) = (b2, o2) -> binv f d b2 (h ++ o2) t1 /\ forall t' p' id', ~ In (OStart t' p' id') o2).
  { intros b2 o2 [= <- <-]. rewrite app_nil_r. split; [exact (grow _ _ _ _ _ _ L I)|intros t' p' id' []]. }
  destruct (alive (thread_phase id (b_threads b))) eqn:Ea;
    [|destruct (thread_phase id (b_threads b)); try discriminate; destruct s; apply Hsame].
  pose proof (phase_id _ _ _ _ _ _ I Ea) as Es. pose proof (n_threads _ _ _ _ _ I) as T. unfold threads_ok in T. rewrite Es in T.
  destruct T as (p & rest & E & Ei & Ho & Hc & Hg & Hs & Hcr). rewrite E, find_head in Ea |- *.
  assert (Hset : forall q, set_thread id q ((id, p) :: rest) = (id, q) :: rest).
  { intros q. unfold set_thread. cbn [map fst]. rewrite N.eqb_refl. f_equal. apply (set_old rest (length rest)); [exact Ho|lia]. }
  pose proof (grow _ _ _ _ _ _ L I) as I'. destruct I' as [I1 I2 I3 I4 I5 I6 I7 I8 I9 I10].
  assert (Hn : f = false -> False) by (intros ->; destruct (I5 eq_refl); congruence).
  destruct p; try discriminate; destruct s as [| |t|]; try apply Hsame; rewrite ?Hset.
  - (* begin *) unfold set_scanning. rewrite (Hs ltac:(discriminate)). cbn [eqb]. intros [= <- <-]. split; [|intros t' p' id' [H|[]]; discriminate].
    split; try assumption.
    + unfold threads_ok. cbn [set_threads b_scanner b_threads b_queue b_scanning]. rewrite Es. exists ThScanning, rest.
      rewrite going_app, crashed_app, Hg, Hcr. repeat split; auto.
    + intros F. now apply Hn in F.
    + intros t' id' Hin. apply in_snoc_other in Hin; [eauto|discriminate].
    + rewrite reported_sc_app. reflexivity.
    + intros id' r Hin. apply in_snoc_other in Hin; [eauto|discriminate].
    + intros Hin. apply in_snoc_other in Hin; [auto|discriminate].
  - (* panic *) intros [= <- <-]. split; [|intros t' p' id' [H|[]]; discriminate]. split; try assumption.
    + unfold threads_ok. cbn [set_threads b_scanner b_threads b_queue b_scanning]. rewrite Es. exists ThCrashed, rest.
      rewrite going_app, crashed_app, Hg, Hcr. cbn. rewrite N.eqb_refl. cbn. repeat split; auto; try (intros X; now contradict X).
    + intros F. now apply Hn in F.
    + intros t' id' Hin. apply in_snoc_other in Hin; [eauto|discriminate].
    + rewrite reported_sc_app. exact I8.
    + intros id' r Hin. apply in_snoc_other in Hin; [eauto|discriminate].
    + intros Hin. apply in_snoc_other in Hin; [auto|discriminate].
  - (* finish *) unfold set_scanning. rewrite (Hs ltac:(discriminate)). cbn [eqb]. intros [= <- <-]. split; [|intros t' p' id' [H|[]]; discriminate].
    split; try assumption.
    + unfold threads_ok. cbn [set_threads b_scanner b_threads b_queue b_scanning]. rewrite Es. exists ThScanned, rest.
      rewrite going_app, crashed_app, Hg, Hcr. repeat split; auto.
    + intros F. now apply Hn in F.
    + intros t' id' Hin. apply in_snoc_other in Hin; [eauto|discriminate].
    + rewrite reported_sc_app. reflexivity.
    + intros id' r Hin. apply in_snoc_other in Hin; [eauto|discriminate].
    + intros Hin. apply in_snoc_other in Hin; [auto|discriminate].
  - (* panic *) intros [= <- <-]. split; [|intros t' p' id' [H|[]]; discriminate]. split; try assumption.
    + unfold threads_ok. cbn [set_threads b_scanner b_threads b_queue b_scanning]. rewrite Es. exists ThCrashed, rest.
      rewrite going_app, crashed_app, Hg, Hcr. cbn. rewrite N.eqb_refl. cbn. repeat split; auto; try (intros X; now contradict X).
    + intros F. now apply Hn in F.
    + intros t' id' Hin. apply in_snoc_other in Hin; [eauto|discriminate].
    + rewrite reported_sc_app. exact I8.
    + intros id' r Hin. apply in_snoc_other in Hin; [eauto|discriminate].
    + intros Hin. apply in_snoc_other in Hin; [auto|discriminate].
  - (* report *) subst t. rewrite (push_alive _ _ I3). cbn [set_queue b_threads b_scanning]. rewrite E, Hset. intros [= <- <-].
    split; [|intros t' p' id' [H|[]]; discriminate]. split; try assumption.
    + unfold threads_ok. cbn [set_threads set_queue b_scanner b_threads b_queue b_scanning]. rewrite Es. exists ThGone, rest.
      rewrite going_app, crashed_app, Hg, Hcr, completions_app, Hc. cbn. rewrite N.eqb_refl. cbn. repeat split; auto.
      intros _. apply Hs. discriminate.
    + intros F. now apply Hn in F.
    + intros t' id' Hin. apply in_app_or in Hin as [Hin|[[= <- <-]|[]]]; [eauto|lia].
    + rewrite reported_sc_app. exact I8.
    + intros id' r Hin. apply in_snoc_other in Hin; [eauto|discriminate].
    + intros Hin. apply in_snoc_other in Hin; [auto|discriminate].
  - (* panic *) intros [= <- <-]. split; [|intros t' p' id' [H|[]]; discriminate]. split; try assumption.
    + unfold threads_ok. cbn [set_threads b_scanner b_threads b_queue b_scanning]. rewrite Es. exists ThCrashed, rest.
      rewrite going_app, crashed_app, Hg, Hcr. cbn. rewrite N.eqb_refl. cbn. repeat split; auto; try (intros X; now contradict X).
    + intros F. now apply Hn in F.
    + intros t' id' Hin. apply in_snoc_other in Hin; [eauto|discriminate].
    + rewrite reported_sc_app. exact I8.
    + intros id' r Hin. apply in_snoc_other in Hin; [eauto|discriminate].
    + intros Hin. apply in_snoc_other in Hin; [auto|discriminate].
Qed.

Lemma tasks_inv f d b h t0 c m p : binv f d b h t0 -> binv f d (set_tasks b c m p (b_handler b)) h t0.
Proof. intros [I1 I2 I3 I4 I5 I6 I7 I8 I9 I10]. split; assumption. Qed.

Lemma handler_sender b : b_handler b = true -> has_sender b = true.
Proof. intros H. unfold has_sender. rewrite H. now rewrite !orb_true_r. Qed.

(** A scan that starts was allowed to. *)
Definition start_ok (h : list bobs) (o : list bobs) : Prop :=
  forall t p id, In (OStart t p id) o ->
    o = [OStart t p id] /\ scans_going h = [] /\
    (p = true -> forall t' id', In (OGone t' id') h -> (300 * SEC <= t - t')%Z).

Lemma unqueue_inv f d b h t0 e q :
  binv f d b h t0 -> b_queue b = e :: q -> e <> HScanCompleted -> binv f d (set_queue b q) h t0.
Proof.
  intros [I1 I2 I3 I4 I5 I6 I7 I8 I9 I10] Eq He. split; try assumption.
  unfold threads_ok in *. cbn [set_queue b_scanner b_threads b_queue b_feature b_scanning b_last]. rewrite Eq in I4.
  destruct e; [|congruence]. exact I4.
Qed.

Lemma step_binv f d b h t0 t1 e b' o :
  binv f d b h t0 -> (t0 <= t1)%Z -> clock [e] = [] \/ clock [e] = [t1] ->
  bg_step b e = (b', o) -> binv f d b' (h ++ o) t1 /\ start_ok h o.
Proof.
  intros I L Hc. pose proof (grow _ _ _ _ _ _ L I) as I1. pose proof (n_handler _ _ _ _ _ I) as Hh.
  assert (Hsame : forall b2 o2, (b, []) = (b2, o2) -> binv f d b2 (h ++ o2) t1 /\ start_ok h o2).
  { intros b2 o2 [= <- <-]. rewrite app_nil_r. split; [exact I1|intros t' p' id' []]. }
  assert (Hpush : forall c b2 o2, push b (HCommand c) = (b2, o2) -> binv f d b2 (h ++ o2) t1 /\ start_ok h o2).
  { intros c b2 o2 H. split; [exact (push_command _ _ _ _ _ _ _ _ I1 H)|]. rewrite (push_alive _ _ Hh) in H. injection H as <- <-.
    intros t' p' id' []. }
  destruct e as [c|c| |t|id s| | |]; cbn [bg_step].
  - destruct (b_client b); [apply Hpush|apply Hsame].
  - destruct (b_main b); [apply Hpush|apply Hsame|apply Hsame].
  - destruct (b_periodic b); [apply Hpush|apply Hsame|apply Hsame].
  - assert (t = t1) as -> by (destruct Hc as [Hc|Hc]; cbn in Hc; congruence).
    rewrite Hh. destruct (b_queue b) as [|e q] eqn:Eq.
    + rewrite (handler_sender _ Hh). apply Hsame.
    + destruct e as [c|]; cbn [process_event].
      * pose proof (unqueue_inv _ _ _ _ _ _ _ I1 Eq ltac:(discriminate)) as I2. destruct c; cbn [process_event].
        -- intros [= <- <-]. split; [exact (quiet_obs _ _ _ _ _ OReset I2 Logic.I)|]. intros t' p' id' [H|[]]. discriminate.
        -- intros H. destruct (scan_inv _ _ _ _ _ _ _ _ _ I2 H) as [A B]. split; [exact A|].
           intros t' p' id' Hin. destruct (B _ _ _ Hin) as (-> & -> & E & G & _). repeat split; [exact E|exact G|discriminate].
        -- unfold periodic_network_scan. cbv zeta. cbn [set_queue b_last].
           destruct (Z.leb_spec NETWORK_SCAN_PERIOD (match b_last b with Some t2 => Z.max 0 (t1 - t2) | None => NETWORK_SCAN_PERIOD end)) as [Hp|Hp].
           ++ intros H. destruct (scan_inv _ _ _ _ _ _ _ _ _ I2 H) as [A B]. split; [exact A|].
              intros t' p' id' Hin. destruct (B _ _ _ Hin) as (-> & -> & E & G & Es). split; [exact E|]. split; [exact G|].
              intros _ t2 id2 Hgone. pose proof (n_threads _ _ _ _ _ I2) as T. unfold threads_ok in T. cbn [set_queue b_scanner] in *. rewrite Es in T.
              destruct T as (_ & _ & _ & _ & _ & T). destruct (T _ _ Hgone) as (l & El & Hl). cbn [set_queue b_last] in El. rewrite El in Hp.
              unfold NETWORK_SCAN_PERIOD, SEC in *. lia.
           ++ intros [= <- <-]. rewrite app_nil_r. split; [exact I2|]. intros t' p' id' [].
      * intros H. destruct (completed_inv _ _ _ _ _ _ _ _ _ I L Eq H) as [A B]. split; [exact A|].
        intros t' p' id' Hin. now apply B in Hin.
  - intros H. assert (X : match s with SReport t => t = t1 | _ => True end).
    { destruct s; try exact Logic.I. destruct Hc as [Hc|Hc]; cbn in Hc; congruence. }
    destruct (thread_inv _ _ _ _ _ _ _ _ _ _ I L X H) as [A B]. split; [exact A|]. intros t' p' id' Hin. now apply B in Hin.
  - intros [= <- <-]. rewrite app_nil_r. split; [apply tasks_inv, I1|intros t' p' id' []].
  - intros [= <- <-]. rewrite app_nil_r. split; [apply tasks_inv, I1|intros t' p' id' []].
  - intros [= <- <-]. rewrite app_nil_r. split; [apply tasks_inv, I1|intros t' p' id' []].
Qed.

Lemma clock_one e : clock [e] = [] \/ exists t, clock [e] = [t].
Proof. destruct e as [| | |t|? []| | |]; cbn; eauto. Qed.
Lemma clock_cons e es : clock (e :: es) = clock [e] ++ clock es.
Proof. unfold clock. cbn [flat_map]. now rewrite app_nil_r. Qed.

Lemma bg_run_inv f d es : forall b h t0 b' o,
  binv f d b h t0 -> ascending t0 (clock es) -> bg_run b es = (b', o) ->
  (exists t1, binv f d b' (h ++ o) t1) /\
  (forall o1 t p id o2, o = o1 ++ OStart t p id :: o2 ->
     scans_going (h ++ o1) = [] /\ (p = true -> forall t' id', In (OGone t' id') (h ++ o1) -> (300 * SEC <= t - t')%Z)).
Proof.
  induction es as [|e es IH]; intros b h t0 b' o I Ha; cbn [bg_run].
  - intros [= <- <-]. rewrite app_nil_r. split; [eauto|]. intros [|? ?] ? ? ? ? H; discriminate.
  - destruct (bg_step b e) as [b1 o1] eqn:E1. destruct (bg_run b1 es) as [b2 o2] eqn:E2. intros [= <- <-].
    rewrite clock_cons in Ha.
    assert (exists t1, (t0 <= t1)%Z /\ (clock [e] = [] \/ clock [e] = [t1]) /\ ascending t1 (clock es)) as (t1 & L & Hc & Ha').
    { destruct (clock_one e) as [X|[t X]]; rewrite X in *; cbn in Ha.
      - exists t0. repeat split; [lia|auto|exact Ha].
      - exists t. destruct Ha. repeat split; [lia|auto|assumption]. }
    destruct (step_binv _ _ _ _ _ _ _ _ _ I L Hc E1) as [I1 S1].
    destruct (IH _ _ _ _ _ I1 Ha' E2) as [IHa IHb]. rewrite <- app_assoc in IHa. split; [exact IHa|].
    intros p1 t p id p2 Hp.
    assert (Hin : In (OStart t p id) (o1 ++ o2)) by (rewrite Hp; apply in_or_app; right; now left).
    destruct (Nat.lt_ge_cases (length p1) (length o1)) as [Hl|Hl].
    + assert (In (OStart t p id) o1).
      { assert (X : nth_error (o1 ++ o2) (length p1) = Some (OStart t p id)) by (rewrite Hp, nth_error_app2, Nat.sub_diag by lia; reflexivity).
        rewrite nth_error_app1 in X by lia. exact (nth_error_In _ _ X). }
      destruct (S1 _ _ _ H) as (-> & A & B). cbn in Hl. assert (p1 = []) as -> by (destruct p1; [reflexivity|cbn in Hl; lia]).
      rewrite app_nil_r. auto.
    + assert (exists q, p1 = o1 ++ q) as [q ->].
      { exists (skipn (length o1) p1). assert (X : firstn (length o1) (o1 ++ o2) = firstn (length o1) (p1 ++ OStart t p id :: p2)) by now rewrite Hp.
        rewrite firstn_app, firstn_all, Nat.sub_diag, firstn_O, app_nil_r, firstn_app in X.
        replace (length o1 - length p1)%nat with 0%nat in X by lia. rewrite firstn_O, app_nil_r in X. rewrite X at 1. symmetry. apply firstn_skipn. }
      rewrite <- app_assoc in Hp. apply app_inv_head in Hp. rewrite app_assoc. exact (IHb _ _ _ _ _ Hp).
Qed.


Lemma background_inv f d es b h t0 :
  background f d es = (b, h) -> ascending t0 (clock es) ->
  (exists t1, binv f d b h t1) /\
  (forall h1 t p id h2, h = h1 ++ OStart t p id :: h2 ->
     scans_going h1 = [] /\ (p = true -> forall t' id', In (OGone t' id') h1 -> (300 * SEC <= t - t')%Z)).
Proof. intros H Ha. exact (bg_run_inv f d es _ [] t0 b h (new_binv f d t0) Ha H). Qed.

(** ** C47 *)
Lemma one_scan f d es b h t0 :
  background f d es = (b, h) -> ascending t0 (clock es) -> (length (scans_going h) <= 1)%nat.
Proof.
  intros H Ha. destruct (background_inv _ _ _ _ _ _ H Ha) as [[t1 I] _]. pose proof (n_threads _ _ _ _ _ I) as T. unfold threads_ok in T.
  destruct (b_scanner b) as [i|].
  - destruct T as (p & rest & _ & _ & _ & _ & -> & _). destruct (alive p); cbn; lia.
  - destruct T as (_ & _ & -> & _). cbn. lia.
Qed.
Lemma scan_start f d es b h t0 h1 t p id h2 :
  background f d es = (b, h) -> ascending t0 (clock es) -> h = h1 ++ OStart t p id :: h2 ->
  scans_going h1 = [] /\ (p = true -> forall t' id', In (OGone t' id') h1 -> (300 * SEC <= t - t')%Z).
Proof. intros H Ha. exact (proj2 (background_inv _ _ _ _ _ _ H Ha) h1 t p id h2). Qed.
Lemma no_blocking f d es b h t0 id r :
  background f d es = (b, h) -> ascending t0 (clock es) -> In (OJoin id r) h -> r = false.
Proof. intros H Ha. destruct (background_inv _ _ _ _ _ _ H Ha) as [[t1 I] _]. exact (n_join _ _ _ _ _ I id r). Qed.

(** ** The handler runs for ever *)
Lemma push_handler b e : b_handler (fst (push b e)) = b_handler b.
Proof. unfold push. destruct (b_handler b) eqn:E; exact E. Qed.
Lemma scan_handler b t p : b_handler (fst (scan_network b t p)) = b_handler b.
Proof. unfold scan_network. destruct (b_feature b); [destruct (_ || _); reflexivity|apply push_handler]. Qed.
Lemma step_handler b e : b_handler b = true -> b_handler (fst (bg_step b e)) = true.
Proof.
  intros H. destruct e as [c|c| |t|id s| | |]; cbn [bg_step].
  - destruct (b_client b); [rewrite push_handler|]; exact H.
  - destruct (b_main b); [rewrite push_handler| |]; exact H.
  - destruct (b_periodic b); [rewrite push_handler| |]; exact H.
  - rewrite H. destruct (b_queue b) as [|e q]; [rewrite (handler_sender _ H); exact H|].
    destruct e as [[]|]; cbn [process_event].
    + exact H.
    + rewrite scan_handler. exact H.
    + unfold periodic_network_scan. cbv zeta. destruct (_ <=? _)%Z; [rewrite scan_handler|]; exact H.
    + unfold scan_completed. destruct (b_scanner _); exact H.
  - unfold thread_step. cbv zeta. destruct (thread_phase id (b_threads b)), s; try exact H.
    pose proof (push_handler b HScanCompleted) as X. destruct (push b HScanCompleted). cbn in *. congruence.
  - exact H.
  - exact H.
  - exact H.
Qed.
Lemma run_handler es : forall b, b_handler b = true -> b_handler (fst (bg_run b es)) = true.
Proof.
  induction es as [|e es IH]; intros b H; [exact H|]. cbn [bg_run]. pose proof (step_handler b e H) as H1.
  destruct (bg_step b e) as [b1 o1]. specialize (IH b1 H1). destruct (bg_run b1 es). exact IH.
Qed.

Lemma push_whole b e : b_handler b = true -> snd (push b e) = [].
Proof. intros H. unfold push. now rewrite H. Qed.
Lemma scan_whole b t p : b_handler b = true -> ~ In OBroken (snd (scan_network b t p)).
Proof.
  intros H. unfold scan_network. destruct (b_feature b); [|rewrite (push_whole _ _ H); intros []].
  destruct (_ || _); cbn; [intros []|]. intros [X|[]]. discriminate.
Qed.
Lemma step_whole b e : b_handler b = true -> ~ In OBroken (snd (bg_step b e)).
Proof.
  intros H. destruct e as [c|c| |t|id s| | |]; cbn [bg_step]; try (intros []).
  - destruct (b_client b); [rewrite (push_whole _ _ H)|]; intros [].
  - destruct (b_main b); [rewrite (push_whole _ _ H)| |]; intros [].
  - destruct (b_periodic b); [rewrite (push_whole _ _ H)| |]; intros [].
  - rewrite H. destruct (b_queue b) as [|e q]; [rewrite (handler_sender _ H); intros []|].
    destruct e as [[]|]; cbn [process_event].
    + intros [X|[]]. discriminate.
    + now apply scan_whole.
    + unfold periodic_network_scan. cbv zeta. destruct (_ <=? _)%Z; [now apply scan_whole|intros []].
    + unfold scan_completed. destruct (b_scanner _); [intros [X|[]]; discriminate|intros []].
  - unfold thread_step, set_scanning. cbv zeta. destruct (thread_phase id (b_threads b)), s; try solve [intros []]; try solve [intros [X|[]]; discriminate X].
    + destruct (eqb _ _); [intros []|intros [X|[]]; discriminate].
    + destruct (eqb _ _); [intros []|intros [X|[]]; discriminate].
    + rewrite (push_alive _ _ H). intros [X|[]]; discriminate.
Qed.
Lemma run_whole es : forall b, b_handler b = true -> ~ In OBroken (snd (bg_run b es)).
Proof.
  induction es as [|e es IH]; intros b H; [intros []|]. cbn [bg_run]. pose proof (step_handler b e H) as H1. pose proof (step_whole b e H) as H2.
  destruct (bg_step b e) as [b1 o1]. specialize (IH b1 H1). destruct (bg_run b1 es). cbn [snd] in *. intros X.
  apply in_app_or in X as [X|X]; auto.
Qed.
Lemma channel_whole f d es : ~ In OBroken (snd (background f d es)).
Proof. apply run_whole. reflexivity. Qed.

Lemma handler_immortal :
  exists f d es, In EvClose es /\ In EvMain es /\ In EvPeriodic es /\
    (let b := fst (background f d es) in
     b_client b = false /\ b_main b = TkEnded /\ b_periodic b = TkEnded /\ b_queue b = [] /\
     forallb (fun p => negb (alive (snd p))) (b_threads b) = true) /\
    forall es', b_handler (fst (background f d (es ++ es'))) = true.
Proof.
  exists true, true, [EvClose; EvMain; EvPeriodic]. split; [cbn; auto|]. split; [cbn; auto|]. split; [cbn; auto|].
  split; [vm_compute; repeat split|]. intros es'. apply run_handler. reflexivity.
Qed.

(** ** C49 *)
Lemma push_tasks b e : let b' := fst (push b e) in b_main b' = b_main b /\ b_periodic b' = b_periodic b /\ b_client b' = b_client b.
Proof. unfold push. destruct (b_handler b); repeat split. Qed.
Lemma scan_tasks b t p : let b' := fst (scan_network b t p) in b_main b' = b_main b /\ b_periodic b' = b_periodic b /\ b_client b' = b_client b.
Proof. unfold scan_network. destruct (b_feature b); [destruct (_ || _); repeat split|apply push_tasks]. Qed.
Lemma step_tasks b e :
  let b' := fst (bg_step b e) in
  b_main b' = match e with EvClose => abort (b_main b) | EvMain => Background.finish (b_main b) | _ => b_main b end /\
  b_periodic b' = match e with EvClose => abort (b_periodic b) | EvPeriodic => Background.finish (b_periodic b) | _ => b_periodic b end /\
  b_client b' = match e with EvClose => false | _ => b_client b end.
Proof.
  cbv zeta. destruct e as [c|c| |t|id s| | |]; cbn [bg_step]; try (repeat split; fail).
  - destruct (b_client b) eqn:E; [rewrite <- E; apply push_tasks|]. repeat split. exact E.
  - destruct (b_main b) eqn:E; [rewrite <- E; apply push_tasks| |]; repeat split; exact E.
  - destruct (b_periodic b) eqn:E; [rewrite <- E; apply push_tasks| |]; repeat split; exact E.
  - destruct (b_handler b); [|repeat split]. destruct (b_queue b) as [|e q]; [destruct (has_sender b); repeat split|].
    destruct e as [[]|]; cbn [process_event]; try (repeat split; fail).
    + exact (scan_tasks (set_queue b q) t false).
    + unfold periodic_network_scan. cbv zeta. destruct (_ <=? _)%Z; [exact (scan_tasks (set_queue b q) t true)|repeat split].
    + unfold scan_completed. destruct (b_scanner _); repeat split.
  - unfold thread_step. cbv zeta. destruct (thread_phase id (b_threads b)), s; try (repeat split; fail).
    pose proof (push_tasks b HScanCompleted) as X. destruct (push b HScanCompleted). exact X.
Qed.

Definition closing (t : task) : Prop := t = TkAborting \/ t = TkEnded.
Lemma run_closing es : forall b, b_client b = false -> closing (b_main b) -> closing (b_periodic b) ->
  let b' := fst (bg_run b es) in
  b_client b' = false /\
  (closing (b_main b') /\ (b_main b = TkEnded \/ In EvMain es -> b_main b' = TkEnded)) /\
  (closing (b_periodic b') /\ (b_periodic b = TkEnded \/ In EvPeriodic es -> b_periodic b' = TkEnded)).
Proof.
  induction es as [|e es IH]; intros b Hc Hm Hp; cbn [bg_run].
  - cbv zeta. cbn [fst]. split; [exact Hc|]. split; (split; [assumption|]; intros [H|[]]; exact H).
  - destruct (step_tasks b e) as (A & B & C). destruct (bg_step b e) as [b1 o1]. cbn [fst] in A, B, C.
    assert (X : b_client b1 = false /\ closing (b_main b1) /\ closing (b_periodic b1) /\
      (b_main b = TkEnded \/ e = EvMain -> b_main b1 = TkEnded) /\ (b_periodic b = TkEnded \/ e = EvPeriodic -> b_periodic b1 = TkEnded)).
    { rewrite A, B, C. unfold closing in *. destruct e, Hm as [-> | ->], Hp as [-> | ->]; cbn; repeat split; auto;
        intros [Y|Y]; auto; discriminate. }
    destruct X as (X1 & X2 & X3 & X4 & X5). specialize (IH b1 X1 X2 X3). destruct (bg_run b1 es) as [b2 o2]. cbn [fst] in *.
    destruct IH as (Y1 & (Y2 & Y3) & (Y4 & Y5)). split; [exact Y1|]. split; (split; [assumption|]).
    + intros [H|[H|H]]; apply Y3; auto.
    + intros [H|[H|H]]; apply Y5; auto.
Qed.
Lemma tasks_end f d es1 es2 :
  let b := fst (background f d (es1 ++ EvClose :: es2)) in
  b_client b = false /\ (In EvMain es2 -> b_main b = TkEnded) /\ (In EvPeriodic es2 -> b_periodic b = TkEnded).
Proof.
  unfold background.
  assert (X : forall es1 b, exists b1, fst (bg_run b (es1 ++ EvClose :: es2)) = fst (bg_run b1 es2) /\
    b_client b1 = false /\ closing (b_main b1) /\ closing (b_periodic b1)).
  { clear es1. induction es1 as [|e es1 IH]; intros b; cbn [app bg_run].
    - cbn [bg_step]. eexists. split; [|split; [|split]]; cycle 1.
      + exact (eq_refl (b_client (set_tasks b false (abort (b_main b)) (abort (b_periodic b)) (b_handler b)))).
      + cbn. unfold closing. destruct (b_main b); auto.
      + cbn. unfold closing. destruct (b_periodic b); auto.
      + destruct (bg_run _ es2). reflexivity.
    - destruct (bg_step b e) as [b1 o1]. destruct (IH b1) as (b2 & E & R). exists b2. split; [|exact R].
      destruct (bg_run b1 (es1 ++ EvClose :: es2)). exact E. }
  destruct (X es1 (bg_new f d)) as (b1 & -> & A & B & C). destruct (run_closing es2 b1 A B C) as (D & (_ & E) & (_ & F)).
  split; [exact D|]. split; auto.
Qed.

(** ** C48 *)
Lemma quiet_state f d es b h t0 :
  background f d es = (b, h) -> ascending t0 (clock es) -> crashed h = false -> scans_going h = [] -> reported_scanning h = false.
Proof.
  intros H Ha Hc Hg. destruct (background_inv _ _ _ _ _ _ H Ha) as [[t1 I] _]. rewrite <- (n_scanning _ _ _ _ _ I).
  pose proof (n_threads _ _ _ _ _ I) as T. unfold threads_ok in T. destruct (b_scanner b) as [i|].
  - destruct T as (p & rest & _ & _ & _ & _ & G & S & C). rewrite Hc in C. rewrite Hg in G. destruct p; try discriminate. apply S. discriminate.
  - apply T.
Qed.
Lemma run_snoc es : forall b es', bg_run b (es ++ es') =
  (fst (bg_run (fst (bg_run b es)) es'), snd (bg_run b es) ++ snd (bg_run (fst (bg_run b es)) es')).
Proof.
  induction es as [|e es IH]; intros b es'; cbn [app bg_run fst snd].
  - now destruct (bg_run b es').
  - destruct (bg_step b e) as [b1 o1]. rewrite IH. destruct (bg_run b1 es). cbn [fst snd]. now rewrite app_assoc.
Qed.
Lemma request_served es b h t0 t :
  background true true es = (b, h) -> ascending t0 (clock es) -> crashed h = false -> scans_going h = [] ->
  b_queue b = [] -> b_client b = true ->
  exists id, background true true (es ++ [EvApi CScan; EvHandle t]) =
             (fst (background true true (es ++ [EvApi CScan; EvHandle t])), h ++ [OStart t false id]).
Proof.
  intros H Ha Hc Hg Hq Hcl. destruct (background_inv _ _ _ _ _ _ H Ha) as [[t1 I] _].
  pose proof (n_threads _ _ _ _ _ I) as T. unfold threads_ok in T.
  assert (Es : b_scanner b = None).
  { destruct (b_scanner b) as [i|]; [|reflexivity]. destruct T as (p & rest & _ & _ & _ & Q & G & _ & C). rewrite Hq in Q. rewrite Hc in C. rewrite Hg in G.
    destruct p; try discriminate. }
  unfold background in *. rewrite run_snoc, H. cbn [fst snd]. cbn [bg_run bg_step]. rewrite Hcl, (push_alive _ _ (n_handler _ _ _ _ _ I)), Hq.
  cbn [app set_queue b_handler b_queue fst snd]. rewrite (n_handler _ _ _ _ _ I). cbn [process_event]. unfold scan_network.
  cbn [set_queue b_feature b_discovery b_scanner b_threads]. rewrite (n_feature _ _ _ _ _ I), (n_discovery _ _ _ _ _ I), Es.
  cbn [negb orb fst snd app]. eexists. reflexivity.
Qed.
(** A scan that does not crash ends; a handler that keeps working catches up. *)
Lemma scan_ends f d es b h t0 id t :
  background f d es = (b, h) -> ascending t0 (clock (es ++ [EvThread id (SReport t)])) -> crashed h = false -> scans_going h = [id] ->
  let '(b', h') := background f d (es ++ [EvThread id SBegin; EvThread id SFinish; EvThread id (SReport t)]) in
  scans_going h' = [] /\ crashed h' = false /\ In (OGone t id) h' /\ reported_scanning h' = false.
Proof.
  intros H Ha Hc Hg.
  assert (Ha1 : ascending t0 (clock es)).
  { unfold clock in *. rewrite flat_map_app in Ha. revert Ha. generalize (flat_map (fun e => match e with EvHandle t => [t] | EvThread _ (SReport t) => [t] | _ => [] end) es).
    clear. intros l. revert t0. induction l as [|x l IH]; intros t0; cbn [app ascending]; [auto|]. intros [A B]. split; [exact A|]. exact (IH x B). }
  destruct (background_inv _ _ _ _ _ _ H Ha1) as [[t1 I] _]. pose proof (n_threads _ _ _ _ _ I) as T. unfold threads_ok in T.
  pose proof (n_scanning _ _ _ _ _ I) as Sc. pose proof (n_handler _ _ _ _ _ I) as Hh.
  destruct (b_scanner b) as [i|] eqn:Es; [|destruct T as (_ & _ & G & _); congruence].
  destruct T as (p & rest & E & Ei & Ho & Q & G & S & C). rewrite Hg in G. rewrite Hc in C.
  assert (Ea : alive p = true) by (destruct (alive p); [reflexivity|discriminate]). rewrite Ea in G. injection G as ->.
  assert (Hset : forall p' q, set_thread i q ((i, p') :: rest) = (i, q) :: rest).
  { intros p' q. unfold set_thread. cbn [map fst]. rewrite N.eqb_refl. f_equal. apply (set_old rest (length rest)); [exact Ho|lia]. }
  unfold background in *. rewrite run_snoc, H. cbn [fst snd].
  assert (X : exists b' o, bg_run b [EvThread i SBegin; EvThread i SFinish; EvThread i (SReport t)] = (b', o) /\
    (o = [OScanning true; OScanning false; OGone t i] \/ o = [OScanning false; OGone t i] \/ o = [OGone t i] /\ b_scanning b = false)).
  { specialize (S ltac:(destruct p; discriminate)).
    destruct p; try discriminate; cbn [bg_run bg_step].
    - unfold thread_step at 1. rewrite E, find_head, Hset. unfold set_scanning. rewrite S. cbn [eqb].
      unfold thread_step at 1. cbn [set_threads b_threads]. rewrite find_head, Hset. unfold set_scanning. cbn [set_threads b_scanning eqb].
      unfold thread_step at 1. cbn [set_threads b_threads]. rewrite find_head. rewrite push_alive by exact Hh. do 2 eexists. split; [reflexivity|]. left. reflexivity.
    - unfold thread_step at 1. rewrite E, find_head.
      unfold thread_step at 1. rewrite E, find_head, Hset. unfold set_scanning. rewrite S. cbn [eqb].
      unfold thread_step at 1. cbn [set_threads b_threads]. rewrite find_head. rewrite push_alive by exact Hh. do 2 eexists. split; [reflexivity|]. right. left. reflexivity.
    - unfold thread_step at 1. rewrite E, find_head. unfold thread_step at 1. rewrite E, find_head.
      unfold thread_step at 1. rewrite E, find_head. rewrite push_alive by exact Hh. do 2 eexists. split; [reflexivity|]. right. right. split; [reflexivity|exact S]. }
  destruct X as (b' & o & -> & X). cbn [fst snd]. rewrite going_app, crashed_app, reported_sc_app, Hg, Hc, <- Sc.
  destruct X as [->|[->|[-> X]]]; cbn; rewrite N.eqb_refl; cbn; repeat split; auto; apply in_or_app; right; cbn; auto.
Qed.
Lemma handler_progress d es t0 t :
  ascending t0 (clock es) -> let b := fst (background true d es) in
  length (b_queue (fst (background true d (es ++ [EvHandle t])))) = pred (length (b_queue b)).
Proof.
  intros Ha. destruct (background true d es) as [b h] eqn:H. destruct (background_inv _ _ _ _ _ _ H Ha) as [[t1 I] _]. cbn [fst].
  unfold background in *. rewrite run_snoc, H. cbn [fst bg_run bg_step]. rewrite (n_handler _ _ _ _ _ I).
  destruct (b_queue b) as [|e q] eqn:Eq; [rewrite (handler_sender _ (n_handler _ _ _ _ _ I)); cbn; now rewrite Eq|].
  assert (Hsc : forall p, length (b_queue (fst (scan_network (set_queue b q) t p))) = length q).
  { intros p. unfold scan_network. cbn [set_queue b_feature]. rewrite (n_feature _ _ _ _ _ I). destruct (_ || _); reflexivity. }
  cbn [pred length]. destruct e as [[]|]; cbn [process_event].
  - reflexivity.
  - rewrite <- (Hsc false). destruct (scan_network (set_queue b q) t false). reflexivity.
  - unfold periodic_network_scan. cbv zeta. destruct (_ <=? _)%Z; [|reflexivity].
    rewrite <- (Hsc true). destruct (scan_network (set_queue b q) t true). reflexivity.
  - unfold scan_completed. destruct (b_scanner _); reflexivity.
Qed.

(** A crash is for ever. *)
Lemma step_stuck f d b h t0 e : binv f d b h t0 -> crashed h = true -> existsb is_start (snd (bg_step b e)) = false.
Proof.
  intros I Hc. pose proof (n_threads _ _ _ _ _ I) as T. unfold threads_ok in T. pose proof (n_handler _ _ _ _ _ I) as Hh.
  assert (exists i, b_scanner b = Some i) as [i Es].
  { destruct (b_scanner b) as [i|]; [eauto|]. destruct T as (_ & _ & _ & _ & C & _). congruence. }
  rewrite Es in T. destruct T as (p & rest & E & Ei & Ho & Q & G & S & C). rewrite Hc in C. destruct p; try discriminate.
  assert (Hsc : forall q p t, existsb is_start (snd (scan_network (set_queue b q) t p)) = false).
  { intros q p t. unfold scan_network. cbn [set_queue b_feature b_scanner b_discovery]. rewrite Es, orb_true_r. destruct (b_feature b); [reflexivity|].
    rewrite push_alive by exact Hh. reflexivity. }
  destruct e as [c|c| |t|id s| | |]; cbn [bg_step]; try reflexivity.
  - destruct (b_client b); [rewrite push_alive by exact Hh|]; reflexivity.
  - destruct (b_main b); [rewrite push_alive by exact Hh| |]; reflexivity.
  - destruct (b_periodic b); [rewrite push_alive by exact Hh| |]; reflexivity.
  - rewrite Hh. destruct (b_queue b) as [|e q] eqn:Eq; [rewrite (handler_sender _ Hh); reflexivity|].
    destruct e as [[]|]; cbn [process_event]; try reflexivity.
    + apply Hsc.
    + unfold periodic_network_scan. cbv zeta. destruct (_ <=? _)%Z; [apply Hsc|reflexivity].
    + discriminate.
  - unfold thread_step, set_scanning. cbv zeta. destruct (thread_phase id (b_threads b)), s; try reflexivity; try (destruct (eqb _ _); reflexivity).
    rewrite push_alive by exact Hh. reflexivity.
Qed.
Lemma asc_app l1 : forall t0 l2, ascending t0 (l1 ++ l2) -> ascending t0 l1.
Proof. induction l1 as [|x l1 IH]; intros t0 l2; cbn; [auto|]. intros [A B]. split; [exact A|exact (IH _ _ B)]. Qed.
Lemma clock_app e1 e2 : clock (e1 ++ e2) = clock e1 ++ clock e2.
Proof. apply flat_map_app. Qed.
Lemma crash_final f d es b h t0 es' :
  background f d es = (b, h) -> crashed h = true -> ascending t0 (clock (es ++ es')) ->
  existsb is_start (snd (bg_run b es')) = false.
Proof.
  intros H Hc. induction es' as [|e es' IH] using rev_ind; intros Ha; [reflexivity|].
  rewrite app_assoc, clock_app in Ha. pose proof (asc_app _ _ _ Ha) as Ha1. specialize (IH Ha1).
  rewrite run_snoc. cbn [snd]. rewrite existsb_app, IH. cbn [orb bg_run].
  destruct (background f d (es ++ es')) as [b2 h2] eqn:H2. destruct (background_inv _ _ _ _ _ _ H2 Ha1) as [[t1 I] _].
  unfold background in H, H2. rewrite run_snoc, H in H2. cbn [fst snd] in H2. injection H2 as -> <-.
  assert (Hc2 : crashed (h ++ snd (bg_run b es')) = true) by (rewrite crashed_app, Hc; reflexivity).
  pose proof (step_stuck _ _ _ _ _ e I Hc2) as X. destruct (bg_step b2 e). cbn [snd] in *. now rewrite app_nil_r.
Qed.
(** After a crash in the middle of a scan the reported state stays. *)
Lemma crash_refuted :
  exists f d es, clock es <> [] /\ ascending 0 (clock es) /\
    reported_scanning (snd (background f d es)) = true /\ scans_going (snd (background f d es)) = [] /\
    forall es', ascending 0 (clock (es ++ es')) ->
      existsb is_start (snd (bg_run (fst (background f d es)) es')) = false /\
      reported_scanning (snd (background f d (es ++ es'))) = true.
Proof.
  exists true, true, [EvApi CScan; EvHandle 1; EvThread 0 SBegin; EvThread 0 SPanic].
  split; [discriminate|]. split; [cbn; lia|]. split; [reflexivity|]. split; [reflexivity|]. intros es' Ha.
  destruct (background true true [EvApi CScan; EvHandle 1; EvThread 0 SBegin; EvThread 0 SPanic]) as [b h] eqn:H.
  assert (Hc : crashed h = true /\ reported_scanning h = true /\ b_threads b = [(0, ThCrashed)] /\ b_scanner b = Some 0).
  { vm_compute in H. injection H as <- <-. repeat split. }
  destruct Hc as (Hc & Hr & Ht & Hs). split; [exact (crash_final _ _ _ _ _ _ _ H Hc Ha)|].
  assert (X : forall es', ascending 0 (clock ([EvApi CScan; EvHandle 1; EvThread 0 SBegin; EvThread 0 SPanic] ++ es')) ->
     b_threads (fst (bg_run b es')) = [(0, ThCrashed)] /\ b_scanner (fst (bg_run b es')) = Some 0 /\ reported_scanning (h ++ snd (bg_run b es')) = true).
  { intros es1. induction es1 as [|e es1 IH] using rev_ind; intros Ha1; [cbn [bg_run fst snd]; rewrite app_nil_r; auto|].
    rewrite app_assoc, clock_app in Ha1. pose proof (asc_app _ _ _ Ha1) as Ha2. specialize (IH Ha2). destruct IH as (T1 & T2 & T3).
    destruct (background true true ([EvApi CScan; EvHandle 1; EvThread 0 SBegin; EvThread 0 SPanic] ++ es1)) as [b2 h2] eqn:H2.
    destruct (background_inv _ _ _ _ _ _ H2 Ha2) as [[t1 I] _].
    unfold background in H, H2. rewrite run_snoc, H in H2. cbn [fst snd] in H2. injection H2 as E1 E2.
    rewrite run_snoc. cbn [fst snd]. rewrite E1 in *. rewrite app_assoc, E2 in *.
    pose proof (n_handler _ _ _ _ _ I) as Hh. pose proof (n_threads _ _ _ _ _ I) as T. unfold threads_ok in T. rewrite T2 in T.
    destruct T as (p & rest & E & _ & _ & Q & _). rewrite T1 in E. injection E as <- <-.
    assert (Hsc : forall q p t, scan_network (set_queue b2 q) t p = (set_queue b2 q, [])).
    { intros q p t. unfold scan_network. cbn [set_queue b_feature b_scanner b_discovery]. rewrite T2, orb_true_r. rewrite (n_feature _ _ _ _ _ I). reflexivity. }
    assert (Hsame : forall b3, b_threads b3 = b_threads b2 -> b_scanner b3 = b_scanner b2 ->
      b_threads b3 = [(0, ThCrashed)] /\ b_scanner b3 = Some 0 /\ reported_scanning (h2 ++ []) = true).
    { intros b3 -> ->. rewrite app_nil_r. auto. }
    cbn [bg_run]. destruct e as [c|c| |t|id s| | |]; cbn [bg_step].
    - destruct (b_client b2); [rewrite push_alive by exact Hh|]; cbn [fst snd app]; apply Hsame; reflexivity.
    - destruct (b_main b2); [rewrite push_alive by exact Hh| |]; cbn [fst snd app]; apply Hsame; reflexivity.
    - destruct (b_periodic b2); [rewrite push_alive by exact Hh| |]; cbn [fst snd app]; apply Hsame; reflexivity.
    - rewrite Hh. destruct (b_queue b2) as [|e q] eqn:Eq; [rewrite (handler_sender _ Hh); apply Hsame; reflexivity|].
      destruct e as [[]|]; cbn [process_event].
      + cbn [fst snd app]. rewrite reported_sc_app. auto.
      + rewrite Hsc. apply Hsame; reflexivity.
      + unfold periodic_network_scan. cbv zeta. destruct (_ <=? _)%Z; [rewrite Hsc|]; apply Hsame; reflexivity.
      + discriminate.
    - unfold thread_step. cbv zeta. rewrite T1. unfold thread_phase. cbn [find fst]. destruct (0 =? id); cbn [snd]; destruct s; apply Hsame; reflexivity.
    - apply Hsame; reflexivity.
    - apply Hsame; reflexivity.
    - apply Hsame; reflexivity. }
  destruct (X es' Ha) as (_ & _ & Y). unfold background in *. rewrite run_snoc, H. exact Y.
Qed.
Lemma request_served' es b h t0 t :
  background true true es = (b, h) -> ascending t0 (clock es) -> crashed h = false -> scans_going h = [] ->
  b_queue b = [] -> b_client b = true ->
  exists id, snd (background true true (es ++ [EvApi CScan; EvHandle t])) = h ++ [OStart t false id].
Proof.
  intros H Ha Hc Hg Hq Hcl. destruct (request_served es b h t0 t H Ha Hc Hg Hq Hcl) as (id & E). exists id. now rewrite E.
Qed.
(** The timer *)
Lemma step_last b e x : b_last (fst (bg_step b e)) = Some x -> b_last b = Some x \/ In x (clock [e]).
Proof.
  assert (P : forall c v, b_last (fst (push c v)) = b_last c) by (intros c v; unfold push; now destruct (b_handler c)).
  destruct e as [c|c| |t|id s| | |]; cbn [bg_step]; try (intros H; now left).
  - destruct (b_client b); [rewrite P|]; auto.
  - destruct (b_main b); [rewrite P| |]; auto.
  - destruct (b_periodic b); [rewrite P| |]; auto.
  - destruct (b_handler b); [|auto]. destruct (b_queue b) as [|v q]; [destruct (has_sender b); auto|].
    assert (SN : forall c p, b_last (fst (scan_network c t p)) = b_last c).
    { intros c p. unfold scan_network. destruct (b_feature c); [|apply P]. now destruct (negb (b_discovery c) || _). }
    destruct v as [[]|]; cbn [process_event].
    + auto.
    + rewrite SN. auto.
    + unfold periodic_network_scan. cbv zeta. destruct (_ <=? _)%Z; [rewrite SN|]; auto.
    + unfold scan_completed. cbn. destruct (b_scanner b); cbn [fst set_scanner b_last]; intros E; injection E as <-; right; now left.
  - unfold thread_step. cbv zeta. destruct (thread_phase id (b_threads b)), s; cbn [fst]; auto.
    destruct (push b HScanCompleted) as [b1 o] eqn:E. cbn [fst set_threads b_last]. pose proof (P b HScanCompleted) as X. rewrite E in X. cbn [fst] in X. rewrite X. auto.
Qed.
Lemma run_last es : forall b x, b_last (fst (bg_run b es)) = Some x -> b_last b = Some x \/ In x (clock es).
Proof.
  induction es as [|e es IH]; intros b x; cbn [bg_run]; [now left|]. pose proof (step_last b e x) as S. destruct (bg_step b e) as [b1 o1]. cbn [fst] in S.
  specialize (IH b1 x). destruct (bg_run b1 es) as [b2 o2]. cbn [fst] in *. intros H.
  replace (clock (e :: es)) with (clock [e] ++ clock es) by (unfold clock; cbn [flat_map]; now rewrite app_nil_r). destruct (IH H) as [A|A]; [destruct (S A) as [B|B]|]; auto; right; apply in_or_app; auto.
Qed.
Lemma step_periodic b e : e <> EvClose -> b_periodic b = TkRunning -> b_periodic (fst (bg_step b e)) = TkRunning.
Proof.
  intros N R. assert (P : forall c v, b_periodic (fst (push c v)) = b_periodic c) by (intros c v; unfold push; now destruct (b_handler c)).
  destruct e as [c|c| |t|id s| | |]; cbn [bg_step].
  - destruct (b_client b); [now rewrite P|auto].
  - destruct (b_main b); [now rewrite P| |]; auto.
  - rewrite R. now rewrite P.
  - destruct (b_handler b); [|auto]. destruct (b_queue b) as [|v q]; [destruct (has_sender b); auto|].
    assert (SN : forall c p, b_periodic (fst (scan_network c t p)) = b_periodic c).
    { intros c p. unfold scan_network. destruct (b_feature c); [|apply P]. now destruct (negb (b_discovery c) || _). }
    destruct v as [[]|]; cbn [process_event].
    + auto.
    + rewrite SN. auto.
    + unfold periodic_network_scan. cbv zeta. destruct (_ <=? _)%Z; [rewrite SN|]; auto.
    + unfold scan_completed. destruct (b_scanner _); auto.
  - unfold thread_step. cbv zeta. destruct (thread_phase id (b_threads b)), s; cbn [fst]; auto.
    destruct (push b HScanCompleted) as [b1 o] eqn:E. cbn [fst set_threads b_periodic]. pose proof (P b HScanCompleted) as X. rewrite E in X. cbn [fst] in X. now rewrite X.
  - congruence.
  - exact R.
  - cbn [fst set_tasks b_periodic]. now rewrite R.
Qed.
Lemma run_periodic es : forall b, ~ In EvClose es -> b_periodic b = TkRunning -> b_periodic (fst (bg_run b es)) = TkRunning.
Proof.
  induction es as [|e es IH]; intros b N R; cbn [bg_run]; [exact R|]. pose proof (step_periodic b e) as S. destruct (bg_step b e) as [b1 o1]. cbn [fst] in S.
  specialize (IH b1). destruct (bg_run b1 es) as [b2 o2]. cbn [fst] in *. apply IH; [intros X; apply N; now right|]. apply S; [|exact R]. intros ->. apply N. now left.
Qed.
Lemma periodic_served es b h t0 t :
  background true true es = (b, h) -> ascending t0 (clock es) -> crashed h = false -> scans_going h = [] ->
  b_queue b = [] -> ~ In EvClose es -> (forall t', In t' (clock es) -> 300 * SEC <= t - t')%Z ->
  exists id, snd (background true true (es ++ [EvTimer; EvHandle t])) = h ++ [OStart t true id].
Proof.
  intros H Ha Hc Hg Hq Hcl Hl. destruct (background_inv _ _ _ _ _ _ H Ha) as [[t1 I] _].
  pose proof (n_threads _ _ _ _ _ I) as T. unfold threads_ok in T.
  assert (Es : b_scanner b = None).
  { destruct (b_scanner b) as [i|]; [|reflexivity]. destruct T as (p & rest & _ & _ & _ & Q & G & _ & C). rewrite Hq in Q. rewrite Hc in C. rewrite Hg in G.
    destruct p; try discriminate. }
  assert (Ep : b_periodic b = TkRunning).
  { pose proof (run_periodic es (bg_new true true) Hcl eq_refl) as X. unfold background in H. now rewrite H in X. }
  assert (El : forall x, b_last b = Some x -> (300 * SEC <= t - x)%Z).
  { intros x X. apply Hl. pose proof (run_last es (bg_new true true) x) as Y. unfold background in H. rewrite H in Y. destruct (Y X) as [Z|Z]; [discriminate Z|exact Z]. }
  unfold background in *. rewrite run_snoc, H. cbn [fst snd]. cbn [bg_run bg_step]. rewrite Ep, (push_alive _ _ (n_handler _ _ _ _ _ I)), Hq.
  cbn [app set_queue b_handler b_queue fst snd]. rewrite (n_handler _ _ _ _ _ I). cbn [process_event]. unfold periodic_network_scan. cbv zeta.
  cbn [set_queue b_last].
  replace (NETWORK_SCAN_PERIOD <=? match b_last b with Some t2 => Z.max 0 (t - t2) | None => NETWORK_SCAN_PERIOD end)%Z with true.
  2:{ symmetry. apply Z.leb_le. destruct (b_last b) as [x|]; [specialize (El x eq_refl); unfold NETWORK_SCAN_PERIOD; lia|lia]. }
  unfold scan_network. cbn [set_queue b_feature b_discovery b_scanner b_threads]. rewrite (n_feature _ _ _ _ _ I), (n_discovery _ _ _ _ _ I), Es.
  cbn [negb orb fst snd app]. eexists. reflexivity.
Qed.
