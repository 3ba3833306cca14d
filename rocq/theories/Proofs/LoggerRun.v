(** The file logger: runs, failures and zero rotations. *)
From Coq Require Import String NArith List Bool Lia ZArith ZifyBool ZifyNat ZifyN.
From Verif.Model Require Import Bytes Text Alist Logger.
From Verif.Spec Require Import LoggerSpec.
From Verif.Proofs Require Import BytesFacts AlistFacts LoggerFacts.
Import ListNotations.
Local Open Scope N_scope.

(** ** One write without failures *)
Section Healthy.
  Variable io : N -> option N.
  Hypothesis IO : healthy io.
  Lemma shift_healthy : forall k i l, exists l', shift io k i l = LOk l'.
  Proof.
    induction k as [|k IH]; intros i l; cbn [shift]; [eauto|]. unfold shift_one, exists_file. destruct (alookup _ (lg_files l)) as [c|] eqn:E; cbn [lbind]; [|apply IH].
    unfold rename. rewrite IO. cbn [op_done lg_files]. rewrite E. cbn [lbind]. apply IH.
  Qed.
  Lemma rotate_healthy : forall ovf l, 1 <= lg_rotations l -> lg_rotations l < 2 ^ 64 -> alookup CUR (lg_files l) <> None ->
    exists l', rotate ovf io l = LOk l' /\ same_config l l' /\ lg_written l' = 0 /\ suffix (view (lg_rotations l) (lg_files l')) (view (lg_rotations l) (lg_files l)) /\
      (lg_ops l' <= lg_ops l + 2 * lg_rotations l) /\ forall k, alookup k (lg_files l') = rotated (lg_rotations l) (lg_files l) k.
  Proof.
    intros ovf l N1 Hn C. pose proof (rotate_safe io ovf l N1 Hn) as RS. cbv zeta in RS. destruct (rotate ovf io l) as [l'|l'|l'] eqn:R; [| |contradiction].
    - destruct RS as (A & B & D & _ & E & F). exists l'. auto 10.
    - exfalso. clear RS. unfold rotate in R. replace (ovf && (lg_rotations l =? 0)) with false in R by lia. rewrite usub_exact in R by lia.
      assert (SH : forall q, alookup q (lg_files l) = shifted (lg_rotations l) 0 (lg_files l) q).
      { intros q. unfold shifted. replace ((bak (lg_rotations l - 0) <? q) && (q <=? bak (lg_rotations l))) with false by (unfold bak; lia). replace ((q =? bak (lg_rotations l - 0)) && (0 <? 0)) with false by lia. reflexivity. }
      pose proof (shift_safe io (N.to_nat (lg_rotations l - 1)) 0 l (lg_rotations l) (lg_files l) eq_refl Hn ltac:(lia) (or_intror eq_refl) SH) as S1.
      destruct (shift_healthy (N.to_nat (lg_rotations l - 1)) 0 l) as (l1 & E). rewrite E in *. destruct S1 as (_ & _ & _ & _ & _ & U & _). cbn [lbind] in R.
      replace (0 <? lg_rotations l) with true in R by lia. unfold rename, create in R. rewrite !IO, U in R. destruct (alookup CUR (lg_files l)); [|congruence]. cbn [lbind] in R. rewrite IO in R. discriminate.
  Qed.
  Lemma write_healthy : forall ovf d l, 1 <= lg_rotations l -> lg_rotations l < 2 ^ 64 -> alookup CUR (lg_files l) <> None ->
    exists l' (f : files) (c : bytes), write ovf io d l = LOk l' /\ same_config l l' /\ alookup CUR f = Some c /\ lg_files l' = ainsert CUR (c ++ d) f /\
      (lg_ops l' <= lg_ops l + 2 * lg_rotations l + 1) /\
      ((fits d l /\ f = lg_files l /\ lg_written l' = lg_written l + nlen d) \/
       (~ fits d l /\ (forall k, alookup k f = rotated (lg_rotations l) (lg_files l) k) /\ suffix (view (lg_rotations l) f) (view (lg_rotations l) (lg_files l)) /\ lg_written l' = nlen d)).
  Proof.
    intros ovf d l N1 Hn C. unfold write. destruct (lg_limit l <? lg_written l + nlen d) eqn:F.
    - destruct (rotate_healthy ovf l N1 Hn C) as (l1 & -> & A & W & V & O & R). cbn [lbind]. unfold append. rewrite IO. cbn [lbind]. unfold add_data.
      assert (X : alookup CUR (lg_files l1) = Some []) by (rewrite R; reflexivity). rewrite X.
      eexists. exists (lg_files l1), []. split; [reflexivity|]. split; [exact A|]. split; [exact X|]. split; [reflexivity|]. cbn [set_written op_done set_files lg_ops lg_written]. split; [lia|].
      right. split; [unfold fits; lia|]. split; [exact R|]. split; [exact V|]. rewrite W. lia.
    - cbn [lbind]. unfold append. rewrite IO. cbn [lbind]. unfold add_data. destruct (alookup CUR (lg_files l)) as [c|] eqn:E; [|congruence].
      eexists. exists (lg_files l), c. split; [reflexivity|]. split; [repeat split|]. split; [exact E|]. split; [reflexivity|]. cbn [set_written op_done set_files lg_ops lg_written]. split; [lia|].
      left. split; [unfold fits; lia|]. auto.
  Qed.
End Healthy.

Lemma append_view : forall n (f : files) (c d : bytes), alookup CUR f = Some c -> view n (ainsert CUR (c ++ d) f) = view n f ++ d.
Proof.
  intros n f c d E. unfold view. rewrite content_insert, N.eqb_refl. assert (X : content CUR f = c) by (unfold content; now rewrite E). rewrite X, <- app_assoc. f_equal.
  apply backups_ext. intros i Hi. rewrite content_insert. replace (bak (N.of_nat i) =? CUR) with false by (unfold bak, CUR; lia). reflexivity.
Qed.

(** ** Runs *)
Lemma text_snoc : forall es e, text (es ++ [e]) = text es ++ log_line e.
Proof. intros. unfold text. rewrite map_app, concat_app. cbn [map List.concat]. now rewrite app_nil_r. Qed.
Lemma sized_more : forall limit es e f0 c, sized limit es f0 c -> sized limit (es ++ [e]) f0 c.
Proof. intros limit es e f0 c [H|[(x & I & E)|H]]; [now left| |right; now right]. right. left. exists x. split; [apply in_or_app; now left|exact E]. Qed.
Record inv (n limit : N) (f0 : files) (es : list entry) (l : logger) : Prop := {
  iv_rot : lg_rotations l = n;
  iv_lim : lg_limit l = limit;
  iv_cur : exists c : bytes, alookup CUR (lg_files l) = Some c /\ lg_written l = nlen c;
  iv_view : suffix (view n (lg_files l)) (view n f0 ++ text es);
  iv_kept : view n (lg_files l) = view n f0 ++ text es \/ limit < nlen (content (bak 1) (lg_files l) ++ content CUR (lg_files l));
  iv_out : forall k, k <> CUR -> ~ (bak 1 <= k <= bak n) -> alookup k (lg_files l) = alookup k f0;
  iv_size : forall k c, alookup k (lg_files l) = Some c -> sized limit es f0 c
}.
Lemma write_inv : forall io, healthy io -> forall ovf n limit f0 es l e, 1 <= n -> n < 2 ^ 64 -> inv n limit f0 es l ->
  exists l', write ovf io (log_line e) l = LOk l' /\ lg_level l' = lg_level l /\ inv n limit f0 (es ++ [e]) l' /\ lg_ops l' <= lg_ops l + 2 * n + 1.
Proof.
  intros io IO ovf n limit f0 es l e N1 Hn [R L (c0 & C & W) V K O S]. set (d := log_line e).
  destruct (write_healthy io IO ovf d l) as (l' & f & c & E & (A1 & A2 & A3) & F & G & Q & H); [now rewrite R|now rewrite R|congruence|].
  exists l'. split; [exact E|]. split; [exact A1|]. rewrite R in *. split; [|exact Q].
  assert (Vf : view n (lg_files l') = view n f ++ d) by (rewrite G; now apply append_view).
  assert (B1 : content (bak 1) (lg_files l') = content (bak 1) f) by (rewrite G, content_insert; reflexivity).
  assert (BC : content CUR (lg_files l') = c ++ d) by (rewrite G, content_insert; reflexivity).
  destruct H as [(FT & -> & W')|(NF & RT & SV & W')].
  - rewrite C in F. injection F as <-. constructor; try congruence.
    + exists (c0 ++ d). split; [rewrite G; apply insert_same|]. rewrite W', W, nlen_app. reflexivity.
    + rewrite Vf, text_snoc, app_assoc. now apply suffix_app.
    + rewrite Vf, text_snoc, B1, BC. destruct K as [->|K]; [left; now rewrite app_assoc|]. right. unfold content in K at 2. rewrite C in K. rewrite !nlen_app in *. lia.
    + intros k NC NB. rewrite G, insert_other by exact NC. now apply O.
    + intros k x X. rewrite G, alookup_insert in X. destruct (k =? CUR); [|apply sized_more; now apply (S k)]. injection X as <-. left. unfold fits in FT. rewrite nlen_app. lia.
  - assert (c = []) by (rewrite RT in F; injection F as <-; reflexivity). subst c. constructor; try congruence.
    + exists d. split; [rewrite G; apply insert_same|exact W'].
    + rewrite Vf, text_snoc, app_assoc. apply suffix_app. now apply (suffix_trans _ (view n (lg_files l))).
    + right. rewrite B1, BC. cbn [app]. assert (X : content (bak 1) f = c0) by (unfold content; rewrite RT; unfold rotated; change (bak 1 =? CUR) with false; cbv iota; rewrite N.eqb_refl; now rewrite C).
      rewrite X, nlen_app. unfold fits in NF. lia.
    + intros k NC NB. rewrite G, insert_other by exact NC. rewrite RT. unfold rotated. destruct (N.eqb_spec k CUR); [contradiction|]. destruct (N.eqb_spec k (bak 1)); [exfalso; apply NB; unfold bak in *; lia|].
      replace ((bak 1 <? k) && (k <=? bak n)) with false by lia. now apply O.
    + intros k x X. rewrite G, alookup_insert in X. destruct (N.eqb_spec k CUR) as [->|NC].
      * injection X as <-. right. left. exists e. split; [apply in_or_app; right; now left|reflexivity].
      * apply sized_more. rewrite RT in X. unfold rotated in X. destruct (N.eqb_spec k CUR); [contradiction|]. destruct (k =? bak 1); [now apply (S CUR)|].
        destruct ((bak 1 <? k) && (k <=? bak n)); [|now apply (S k)]. destruct (alookup (k - 1) (lg_files l)) as [y|] eqn:Y; [injection X as <-; now apply (S (k - 1))|].
        destruct (k =? bak n); [now apply (S k)|discriminate].
Qed.
Lemma set_level_inv : forall n limit f0 es l s, inv n limit f0 es l -> inv n limit f0 es (set_level s l).
Proof. intros n limit f0 es l s [A B C D E F G]. constructor; assumption. Qed.
Lemma run_inv : forall io, healthy io -> forall ovf n limit f0, 1 <= n -> n < 2 ^ 64 -> forall cs es l, inv n limit f0 es l ->
  exists l', log_all ovf io cs l = LOk l' /\ inv n limit f0 (es ++ logged (lg_level l) cs) l' /\ lg_ops l' <= lg_ops l + (2 * n + 1) * nlen (logged (lg_level l) cs).
Proof.
  intros io IO ovf n limit f0 N1 Hn. induction cs as [|[e|s] cs IH]; intros es l I; cbn [log_all logged].
  - exists l. rewrite app_nil_r. split; [reflexivity|]. split; [exact I|]. lia.
  - unfold log. change sev_num with sev_code. destruct (sev_code (lg_level l) <=? sev_code (en_sev e)).
    + destruct (write_inv io IO ovf n limit f0 es l e N1 Hn I) as (l1 & -> & Lv & I1 & O1). cbn [lbind]. destruct (IH (es ++ [e]) l1 I1) as (l2 & E & I2 & O2). rewrite Lv in *. exists l2.
      split; [exact E|]. rewrite <- app_assoc in I2. split; [exact I2|]. change (e :: logged (lg_level l) cs) with ([e] ++ logged (lg_level l) cs).
      assert (X : nlen ([e] ++ logged (lg_level l) cs) = 1 + nlen (logged (lg_level l) cs)) by (unfold nlen; rewrite app_length; cbn [List.length]; lia). rewrite X. lia.
    + cbn [lbind]. exact (IH es l I).
  - apply (IH es (set_level s l)). now apply set_level_inv.
Qed.
Lemma new_inv : forall io, healthy io -> forall f0 limit n, exists l, logger_new io f0 limit n = LOk l /\ lg_level l = INFO /\ lg_ops l = 1 /\ inv n limit f0 [] l.
Proof.
  intros io IO f0 limit n. unfold logger_new. rewrite IO. eexists. split; [reflexivity|]. split; [reflexivity|]. split; [reflexivity|].
  assert (VE : view n (ainsert CUR (content CUR f0) f0) = view n f0).
  { unfold view. rewrite content_insert, N.eqb_refl. f_equal. apply backups_ext. intros i Hi. rewrite content_insert. replace (bak (N.of_nat i) =? CUR) with false by (unfold bak, CUR; lia). reflexivity. }
  constructor; cbn [op_done set_files lg_rotations lg_limit lg_files lg_written]; try reflexivity.
  - exists (content CUR f0). split; [apply insert_same|reflexivity].
  - rewrite VE. unfold text. cbn [map List.concat]. rewrite app_nil_r. apply suffix_refl.
  - left. rewrite VE. unfold text. cbn [map List.concat]. now rewrite app_nil_r.
  - intros k NC _. now apply insert_other.
  - intros k c X. rewrite alookup_insert in X. destruct (N.eqb_spec k CUR) as [->|]; [|right; right; eauto]. injection X as <-. unfold content. destruct (alookup CUR f0) as [c|] eqn:E; [right; right; eauto|left; unfold nlen; cbn; lia].
Qed.
Lemma suffix_shorter : forall a b c : bytes, suffix a c -> suffix b c -> nlen a <= nlen b -> suffix a b.
Proof.
  intros a b c [p E] [q F] H. subst c. revert p F. induction q as [|x q IH]; intros p F.
  - cbn [app] in F. subst b. now exists p.
  - destruct p as [|y p].
    + cbn [app] in F. subst a. exfalso. unfold nlen in H. cbn [List.length app] in H. rewrite app_length in H. lia.
    + injection F as -> F. now apply (IH p).
Qed.

Theorem log_run : forall io, healthy io -> forall ovf f0 limit n cs, 1 <= n -> n < 2 ^ 64 ->
  exists l0 l, logger_new io f0 limit n = LOk l0 /\ log_all ovf io cs l0 = LOk l /\
    let all := view n f0 ++ text (logged INFO cs) in
    suffix (view n (lg_files l)) all /\
    (forall recent, suffix recent all -> nlen recent <= limit -> suffix recent (view n (lg_files l))) /\
    (forall k, k <> CUR -> ~ (bak 1 <= k <= bak n) -> alookup k (lg_files l) = alookup k f0) /\
    (forall k c, alookup k (lg_files l) = Some c -> sized limit (logged INFO cs) f0 c) /\
    lg_ops l <= 1 + (2 * n + 1) * nlen (logged INFO cs).
Proof.
  intros io IO ovf f0 limit n cs N1 Hn. destruct (new_inv io IO f0 limit n) as (l0 & E0 & Lv & O0 & I0). destruct (run_inv io IO ovf n limit f0 N1 Hn cs [] l0 I0) as (l & E & I & O).
  rewrite Lv in *. cbn [app] in I. exists l0, l. split; [exact E0|]. split; [exact E|]. cbv zeta. destruct I as [_ _ _ V K OUT S]. split; [exact V|]. split; [|split; [exact OUT|split; [exact S|lia]]].
  intros recent R H. destruct K as [->|K]; [exact R|]. apply (suffix_shorter _ _ _ R V). unfold view. assert (X : exists p, backups (N.to_nat n) (lg_files l) = p ++ content (bak 1) (lg_files l)).
  { clear -N1. destruct (N.to_nat n) as [|m] eqn:E; [lia|]. clear. induction m as [|m (p & IH)]; [exists []; cbn [backups]; now rewrite app_nil_r|]. cbn [backups] in *. rewrite IH. exists (content (bak (N.of_nat (S (S m)))) (lg_files l) ++ p). now rewrite app_assoc. }
  destruct X as (p & ->). rewrite !nlen_app in *. lia.
Qed.

(** ** Failures *)
Lemma opened : forall io f limit n, match logger_new io f limit n with
  | LOk l => io 0 = None /\ lg_level l = INFO /\ lg_limit l = limit /\ lg_rotations l = n /\ lg_written l = nlen (content CUR f) /\
      alookup CUR (lg_files l) = Some (content CUR f) /\ forall k, k <> CUR -> alookup k (lg_files l) = alookup k f
  | LErr l => io 0 <> None /\ lg_files l = f
  | LPanic _ => False
  end.
Proof.
  intros io f limit n. unfold logger_new. cbv zeta. destruct (io 0); [split; [discriminate|reflexivity]|].
  cbn [op_done set_files lg_level lg_limit lg_rotations lg_written lg_files]. do 5 (split; [reflexivity|]). split; [apply insert_same|].
  intros k H. now apply insert_other.
Qed.
Lemma write_loss : forall io ovf d l, let n := lg_rotations l in 1 <= n -> n < 2 ^ 64 -> exists p, prefix p d /\ suffix (view n (lg_files (after (write ovf io d l)))) (view n (lg_files l) ++ p).
Proof.
  intros io ovf d l n N1 Hn. unfold write.
  assert (AP : forall l1, suffix (view n (lg_files l1)) (view n (lg_files l)) ->
    exists p, prefix p d /\ suffix (view n (lg_files (after (lbind (append io d l1) (fun l => LOk (set_written l (lg_written l + nlen d))))))) (view n (lg_files l) ++ p)).
  { intros l1 V. unfold append.
    assert (AD : forall p, suffix (view n (add_data p (lg_files l1))) (view n (lg_files l1) ++ p) \/ add_data p (lg_files l1) = lg_files l1).
    { intros p. unfold add_data. destruct (alookup CUR (lg_files l1)) as [c|] eqn:E; [left|now right]. rewrite (append_view n _ _ p E). apply suffix_refl. }
    destruct (io (lg_ops l1)) as [m|]; cbn [lbind after op_done set_files set_written lg_files].
    - destruct (AD (firstn (N.to_nat m) d)) as [X|X].
      + exists (firstn (N.to_nat m) d). split; [exists (skipn (N.to_nat m) d); symmetry; apply firstn_skipn|]. apply (suffix_trans _ _ _ X). now apply suffix_app.
      + exists []. split; [now exists d|]. rewrite X, app_nil_r. exact V.
    - destruct (AD d) as [X|X].
      + exists d. split; [exists []; symmetry; apply app_nil_r|]. apply (suffix_trans _ _ _ X). now apply suffix_app.
      + exists []. split; [now exists d|]. rewrite X, app_nil_r. exact V. }
  destruct (lg_limit l <? lg_written l + nlen d); [|apply AP; apply suffix_refl].
  pose proof (rotate_safe io ovf l N1 Hn) as RS. cbv zeta in RS. fold n in RS. destruct (rotate ovf io l) as [l1|l1|l1]; cbn [lbind]; [| |contradiction].
  - apply AP. apply RS.
  - cbn [after]. exists []. split; [now exists d|]. rewrite app_nil_r. apply RS.
Qed.
Lemma log_loss : forall io ovf e l, let n := lg_rotations l in 1 <= n -> n < 2 ^ 64 -> exists p, prefix p (log_line e) /\ suffix (view n (lg_files (after (log ovf io e l)))) (view n (lg_files l) ++ p).
Proof.
  intros io ovf e l n N1 Hn. unfold log. destruct (_ <=? _).
  - destruct (write_loss io ovf (log_line e) l N1 Hn) as (p & P & V). exists p. split; [exact P|]. destruct (write ovf io (log_line e) l); exact V.
  - exists []. split; [now exists (log_line e)|]. rewrite app_nil_r. apply suffix_refl.
Qed.
Lemma write_failure : forall io ovf e l, sev_num (lg_level l) <= sev_num (en_sev e) -> fits (log_line e) l -> io (lg_ops l) <> None -> exists l', log ovf io e l = LPanic l'.
Proof.
  intros io ovf e l S F I. unfold log. replace (sev_num (lg_level l) <=? sev_num (en_sev e)) with true by lia. unfold write. unfold fits in F. replace (lg_limit l <? lg_written l + nlen (log_line e)) with false by lia.
  cbn [lbind]. unfold append. destruct (io (lg_ops l)); [|congruence]. cbn [lbind]. eauto.
Qed.
Lemma removed_failure : forall io ovf e l, sev_num (lg_level l) <= sev_num (en_sev e) -> ~ fits (log_line e) l -> 1 <= lg_rotations l -> lg_rotations l < 2 ^ 64 -> alookup CUR (lg_files l) = None ->
  exists l', log ovf io e l = LPanic l'.
Proof.
  intros io ovf e l S F N1 Hn C. unfold log. replace (sev_num (lg_level l) <=? sev_num (en_sev e)) with true by lia. unfold write. unfold fits in F. replace (lg_limit l <? lg_written l + nlen (log_line e)) with true by lia.
  pose proof (rotate_safe io ovf l N1 Hn) as RS. cbv zeta in RS. destruct (rotate ovf io l) as [l1|l1|l1]; cbn [lbind]; [|eauto|contradiction]. destruct RS as (_ & _ & _ & X & _). congruence.
Qed.
(** The level is all that matters for the lines left out. *)
Lemma quiet : forall io ovf e l, sev_num (en_sev e) < sev_num (lg_level l) -> log ovf io e l = LOk l.
Proof. intros io ovf e l H. unfold log. replace (sev_num (lg_level l) <=? sev_num (en_sev e)) with false by lia. reflexivity. Qed.

(** ** No rotations *)
Lemma shift_ops : forall io k i l l', shift io k i l = LOk l' -> lg_ops l + N.of_nat k <= lg_ops l' /\ lg_rotations l' = lg_rotations l.
Proof.
  intros io. induction k as [|k IH]; intros i l l' H; cbn [shift] in H; [injection H as <-; split; [lia|reflexivity]|].
  destruct (shift_one io i l) as [l1|l1|l1] eqn:E; cbn [lbind] in H; try discriminate. apply IH in H. destruct H as [H1 H2].
  assert (X : lg_ops l + 1 <= lg_ops l1 /\ lg_rotations l1 = lg_rotations l).
  { unfold shift_one in E. destruct (exists_file _ l); [|injection E as <-; cbn; split; [lia|reflexivity]]. unfold rename in E. destruct (io _); [discriminate|]. destruct (alookup _ _); [|discriminate].
    injection E as <-. cbn. split; [lia|reflexivity]. }
  destruct X as [X1 X2]. split; [lia|congruence].
Qed.
Lemma no_rotations : forall io e l, sev_num (lg_level l) <= sev_num (en_sev e) -> ~ fits (log_line e) l -> lg_rotations l = 0 ->
  log true io e l = LPanic l /\ forall l', log false io e l = LOk l' -> lg_ops l + (2 ^ 64 - 1) <= lg_ops l'.
Proof.
  intros io e l S F R. unfold log. replace (sev_num (lg_level l) <=? sev_num (en_sev e)) with true by lia. unfold write. unfold fits in F. replace (lg_limit l <? lg_written l + nlen (log_line e)) with true by lia.
  unfold rotate. rewrite R. split; [reflexivity|]. intros l' H. replace (false && (0 =? 0)) with false in H by reflexivity. replace (0 <? 0) with false in H by reflexivity.
  assert (Q : usub 0 1 = 2 ^ 64 - 1) by reflexivity. rewrite Q in H. revert H. generalize (2 ^ 64 - 1). intros K H.
  destruct (shift io (N.to_nat K) 0 l) as [l1|l1|l1] eqn:E; cbn [lbind] in H; try discriminate. apply shift_ops in E. destruct E as [E _].
  unfold create in H. destruct (io (lg_ops l1)); cbn [lbind] in H; [discriminate|]. unfold append in H. cbn [set_written op_done set_files lg_ops] in H. destruct (io (lg_ops l1 + 1)); cbn [lbind] in H; [discriminate|].
  injection H as <-. cbn [set_written op_done set_files lg_ops]. lia.
Qed.
