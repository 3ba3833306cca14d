(** Proofs about lines and chunking. *)
From Coq Require Import NArith List Bool Lia.
From Coq Require Import ZArith ZifyBool ZifyNat ZifyN.
From Verif.Model Require Import Bytes Utf8 Text Http.
From Verif.Spec Require Import HttpSpec.
From Verif.Proofs Require Import TextProofs.
Import ListNotations.
Local Open Scope N_scope.

(** ** Position of the first separator *)
Notation at_crlf s j := (starts_with [13; 10] (skipn j s)).

Lemma at_app s t j : at_crlf s j = true -> at_crlf (s ++ t) j = true.
Proof.
  intros H. apply starts_with_iff in H as (r & H). apply starts_with_iff. exists (r ++ t).
  assert (L : (j <= length s)%nat). { destruct (Nat.le_gt_cases j (length s)); [assumption|]. rewrite skipn_all2 in H by lia. discriminate. }
  rewrite skipn_app, H. replace (j - length s)%nat with O by lia. cbn. reflexivity.
Qed.
Lemma at_bound s j : at_crlf s j = true -> (j + 2 <= length s)%nat.
Proof.
  intros H. apply starts_with_iff in H as (r & H). assert (X : length (skipn j s) = length ([13; 10] ++ r)) by now rewrite H.
  rewrite skipn_length in X. cbn in X. lia.
Qed.
Lemma at_inside s t j : at_crlf (s ++ t) j = true -> (j + 2 <= length s)%nat -> at_crlf s j = true.
Proof.
  intros H L. apply starts_with_iff in H as (r & H). rewrite skipn_app in H. replace (j - length s)%nat with O in H by lia. cbn [skipn] in H.
  apply starts_with_iff. exists (skipn 2 (skipn j s)). rewrite <- (firstn_skipn 2 (skipn j s)) at 1. f_equal.
  assert (X : firstn 2 (skipn j s ++ t) = firstn 2 ([13; 10] ++ r)) by now rewrite H.
  rewrite firstn_app in X. replace (2 - length (skipn j s))%nat with O in X by (rewrite skipn_length; lia). cbn [firstn app] in X.
  now rewrite app_nil_r in X.
Qed.

Lemma first_line_some s l r : first_line s = Some (l, r) -> s = l ++ [13; 10] ++ r /\ forall j, (j < length l)%nat -> at_crlf s j = false.
Proof.
  revert l r. induction s as [|b s IH]; intros l r; cbn [first_line]; [discriminate|].
  destruct s as [|c s']; [discriminate|]. destruct ((b =? 13) && (c =? 10)) eqn:E.
  - intros [= <- <-]. apply andb_true_iff in E as [E1 E2]. apply N.eqb_eq in E1, E2. subst. split; [reflexivity|]. cbn. lia.
  - destruct (first_line (c :: s')) as [[l' r']|]; [|discriminate]. cbn [option_map fst snd]. intros [= <- <-].
    destruct (IH l' r' eq_refl) as [E1 E2]. split; [cbn [app]; now rewrite E1 at 1|]. intros [|j] Hj.
    + cbn [skipn starts_with]. destruct (13 =? b) eqn:Eb, (10 =? c) eqn:Ec; try reflexivity.
      apply N.eqb_eq in Eb, Ec. subst. discriminate.
    + cbn [skipn]. apply E2. cbn in Hj. lia.
Qed.
Lemma first_line_none s : first_line s = None -> forall j, at_crlf s j = false.
Proof.
  induction s as [|b s IH]; cbn [first_line]; [intros _ [|j]; reflexivity|]. destruct s as [|c s'].
  - intros _ [|j]; cbn [skipn starts_with]; [apply andb_false_r|destruct j; reflexivity].
  - destruct ((b =? 13) && (c =? 10)) eqn:E; [discriminate|]. destruct (first_line (c :: s')) as [[]|]; [discriminate|]. intros _.
    intros [|j]; [|cbn [skipn]; apply IH; reflexivity]. cbn [skipn starts_with].
    destruct (13 =? b) eqn:Eb, (10 =? c) eqn:Ec; try reflexivity. apply N.eqb_eq in Eb, Ec. subst. discriminate.
Qed.
Lemma first_line_here s j : at_crlf s j = true -> (forall i, (i < j)%nat -> at_crlf s i = false) ->
  first_line s = Some (firstn j s, skipn (j + 2) s).
Proof.
  intros H Hm. destruct (first_line s) as [[l r]|] eqn:E.
  - destruct (first_line_some _ _ _ E) as [E1 E2].
    assert (Hl : at_crlf s (length l) = true).
    { apply starts_with_iff. exists r. rewrite E1, skipn_app, skipn_all, Nat.sub_diag. reflexivity. }
    assert (j = length l) as ->.
    { destruct (Nat.lt_trichotomy j (length l)) as [L|[L|L]]; [|exact L|]; [rewrite E2 in H by exact L|rewrite Hm in Hl by exact L]; discriminate. }
    rewrite E1 at 1. rewrite firstn_app, firstn_all, Nat.sub_diag. cbn [firstn]. rewrite app_nil_r. f_equal. f_equal.
    rewrite E1, skipn_app. rewrite skipn_all2 by lia. replace (length l + 2 - length l)%nat with 2%nat by lia. reflexivity.
  - rewrite (first_line_none _ E j) in H. discriminate.
Qed.
Lemma first_line_app s t l r : first_line s = Some (l, r) -> first_line (s ++ t) = Some (l, r ++ t).
Proof.
  intros E. destruct (first_line_some _ _ _ E) as [E1 E2].
  assert (Hl : at_crlf s (length l) = true).
  { apply starts_with_iff. exists r. rewrite E1, skipn_app, skipn_all, Nat.sub_diag. reflexivity. }
  rewrite (first_line_here (s ++ t) (length l)).
  - rewrite E1. rewrite <- !app_assoc. rewrite firstn_app, firstn_all, Nat.sub_diag. cbn [firstn]. rewrite app_nil_r. f_equal. f_equal.
    rewrite skipn_app. rewrite skipn_all2 by lia. replace (length l + 2 - length l)%nat with 2%nat by lia. reflexivity.
  - apply at_app, Hl.
  - intros i Hi. destruct (at_crlf (s ++ t) i) eqn:X; [|reflexivity]. apply at_inside in X; [rewrite E2 in X by exact Hi; discriminate|].
    apply at_bound in Hl. lia.
Qed.
Lemma first_line_late s t l r : first_line s = None -> first_line (s ++ t) = Some (l, r) -> (length s < length l + 2)%nat.
Proof.
  intros E1 E2. destruct (first_line_some _ _ _ E2) as [E3 _]. destruct (Nat.lt_ge_cases (length s) (length l + 2)) as [|L]; [assumption|].
  assert (Hl : at_crlf (s ++ t) (length l) = true).
  { apply starts_with_iff. exists r. rewrite E3, skipn_app, skipn_all, Nat.sub_diag. reflexivity. }
  apply at_inside in Hl; [|lia]. rewrite (first_line_none _ E1) in Hl. discriminate.
Qed.

Lemma cut_app max s t :
  match cut_line max s with
  | CLine l r => cut_line max (s ++ t) = CLine l (r ++ t)
  | CRefused => cut_line max (s ++ t) = CRefused
  | CMore => first_line s = None /\ nlen s < max
  end.
Proof.
  unfold cut_line. destruct (first_line s) as [[l r]|] eqn:E.
  - rewrite (first_line_app _ t _ _ E). destruct ((_ <=? _) && _); reflexivity.
  - destruct (N.ltb_spec (nlen s) max) as [L|L]; [auto|].
    destruct (first_line (s ++ t)) as [[l r]|] eqn:E2.
    + pose proof (first_line_late _ _ _ _ E E2). unfold nlen in *. destruct (N.leb_spec (N.of_nat (length l) + 2) max); [lia|reflexivity].
    + destruct (N.ltb_spec (nlen (s ++ t)) max) as [L2|]; [|reflexivity]. unfold nlen in *. rewrite app_length in L2. lia.
Qed.

(** ** The line decoder *)
Lemma find_sep_some n : forall i s j, find_sep n i [13; 10] s = Some j ->
  (i <= j < i + n)%nat /\ at_crlf s j = true /\ forall k, (i <= k < j)%nat -> at_crlf s k = false.
Proof.
  induction n as [|n IH]; intros i s j; cbn [find_sep]; [discriminate|]. destruct (at_crlf s i) eqn:E.
  - intros [= <-]. split; [lia|]. split; [exact E|]. lia.
  - intros H. destruct (IH _ _ _ H) as (A & B & C). split; [lia|]. split; [exact B|]. intros k Hk.
    destruct (Nat.eq_dec k i) as [->|]; [exact E|]. apply C. lia.
Qed.
Lemma find_sep_none n : forall i s, find_sep n i [13; 10] s = None -> forall k, (i <= k < i + n)%nat -> at_crlf s k = false.
Proof.
  induction n as [|n IH]; intros i s; cbn [find_sep]; [lia|]. destruct (at_crlf s i) eqn:E; [discriminate|].
  intros H k Hk. destruct (Nat.eq_dec k i) as [->|]; [exact E|]. apply (IH (S i) s H). lia.
Qed.

Definition buf_ok (max : N) (b : bytes) : Prop := first_line b = None /\ nlen b < max.

Lemma firstn_cut {A} n (l : list A) x : firstn n l = x -> (length l <= n)%nat -> x = l.
Proof. intros <- H. now apply firstn_all2. Qed.

Lemma line_decode_cut max buf data : buf_ok max buf ->
  line_decode crlf max buf data =
  match cut_line max (buf ++ data) with
  | CLine l r => Item l [] r
  | CRefused => Fail
  | CMore => More (buf ++ data) []
  end.
Proof.
  intros [B1 B2]. unfold line_decode. destruct (N.ltb_spec max (nlen buf)) as [X|_]; [lia|]. rewrite andb_false_r. unfold crlf. cbv zeta.
  set (append := if max <? nlen buf + nlen data then N.to_nat (max - nlen buf) else length data).
  set (s := buf ++ data). set (b' := buf ++ firstn append data).
  assert (Happ : (append <= length data)%nat).
  { unfold append, nlen in *. destruct (N.ltb_spec max (N.of_nat (length buf) + N.of_nat (length data))); lia. }
  assert (Hs : s = b' ++ skipn append data). { unfold s, b'. rewrite <- app_assoc. now rewrite firstn_skipn. }
  assert (Hlen : length b' = (length buf + append)%nat). { unfold b'. rewrite app_length, firstn_length. lia. }
  assert (Hfull : (max <= nlen b' <-> max <= nlen s) /\ nlen b' <= max).
  { unfold nlen in *. rewrite Hlen. unfold s. rewrite app_length. unfold append.
    destruct (N.ltb_spec max (N.of_nat (length buf) + N.of_nat (length data))); lia. }
  assert (Hsmall : nlen s < max -> append = length data).
  { unfold append, s, nlen. rewrite app_length. intros H. destruct (N.ltb_spec max (N.of_nat (length buf) + N.of_nat (length data))); [lia|reflexivity]. }
  assert (Hearly : forall k, (k < length buf - 2)%nat -> at_crlf s k = false).
  { intros k Hk. destruct (at_crlf s k) eqn:X; [|reflexivity]. unfold s in X. apply at_inside in X; [|lia].
    rewrite (first_line_none _ B1) in X. discriminate. }
  assert (Hstop : (if Nat.leb 2 (length b') then (length b' - 2 + 1)%nat else O) = (length b' - 1)%nat).
  { destruct (Nat.leb_spec 2 (length b')); lia. }
  cbn [length]. rewrite Hstop.
  destruct (find_sep (length b' - 1 - (length buf - 2)) (length buf - 2) [13; 10] b') as [i|] eqn:Ef.
  - destruct (find_sep_some _ _ _ _ Ef) as (F1 & F2 & F3). pose proof (at_bound _ _ F2) as F4.
    assert (Hfl : first_line s = Some (firstn i s, skipn (i + 2) s)).
    { apply first_line_here; [rewrite Hs; now apply at_app|]. intros k Hk. destruct (Nat.lt_ge_cases k (length buf - 2)); [now apply Hearly|].
      destruct (at_crlf s k) eqn:X; [|reflexivity]. rewrite Hs in X. apply at_inside in X; [|lia]. rewrite F3 in X by lia. discriminate. }
    unfold cut_line. rewrite Hfl.
    assert (Hi : (length buf < i + 2)%nat).
    { destruct (Nat.lt_ge_cases (length buf) (i + 2)); [assumption|]. exfalso. unfold b' in F2. apply at_inside in F2; [|lia].
      rewrite (first_line_none _ B1) in F2. discriminate. }
    assert (Hfi : firstn i b' = firstn i s). { rewrite Hs, firstn_app. replace (i - length b')%nat with O by lia. cbn [firstn]. now rewrite app_nil_r. }
    rewrite Hfi. replace (nlen (firstn i s) + 2 <=? max) with true.
    + cbn [andb]. destruct (utf8_valid (firstn i s)); [|reflexivity]. f_equal.
      unfold s. rewrite skipn_app. rewrite (skipn_all2 buf) by lia. reflexivity.
    + symmetry. apply N.leb_le. destruct Hfull as [_ Hm]. unfold nlen in *. rewrite firstn_length. lia.
  - pose proof (find_sep_none _ _ _ Ef) as F.
    assert (Hnone : forall k, at_crlf b' k = false).
    { intros k. destruct (at_crlf b' k) eqn:X; [|reflexivity]. pose proof (at_bound _ _ X) as Y.
      destruct (Nat.lt_ge_cases k (length buf - 2)) as [L|L].
      - apply (at_app _ (skipn append data)) in X. rewrite <- Hs in X. rewrite Hearly in X by exact L. discriminate.
      - rewrite F in X by lia. discriminate. }
    assert (Hfb : first_line b' = None).
    { destruct (first_line b') as [[l r]|] eqn:E; [|reflexivity]. destruct (first_line_some _ _ _ E) as [E1 _]. specialize (Hnone (length l)).
      assert (X : at_crlf b' (length l) = true).
      { apply starts_with_iff. exists r. rewrite E1, skipn_app, skipn_all, Nat.sub_diag. reflexivity. }
      congruence. }
    destruct Hfull as [Hfull Hmax]. unfold cut_line. destruct (N.leb_spec max (nlen b')) as [L|L].
    + destruct (first_line s) as [[l r]|] eqn:E.
      * rewrite Hs in E. pose proof (first_line_late _ _ _ _ Hfb E) as X. destruct (N.leb_spec (nlen l + 2) max) as [Y|]; [|reflexivity].
        unfold nlen in *. lia.
      * destruct (N.ltb_spec (nlen s) max) as [Y|]; [|reflexivity]. apply Hfull in L. lia.
    + assert (Hss : nlen s < max) by lia. specialize (Hsmall Hss).
      assert (b' = s) as Ebs. { unfold b', s. rewrite Hsmall, firstn_all. reflexivity. }
      rewrite Ebs in Hfb. rewrite Hfb. destruct (N.ltb_spec (nlen s) max); [|lia]. rewrite Ebs, Hsmall, skipn_all. reflexivity.
Qed.

(** ** Decoders that do not depend on chunking *)
Definition chunk_law {S A} (inv : S -> Prop) (dec : S -> bytes -> outcome S A) : Prop :=
  forall s x y, inv s ->
    match dec s x with
    | Item a s' r => dec s (x ++ y) = Item a s' (r ++ y)
    | More s' r => r = [] /\ inv s' /\ dec s (x ++ y) = dec s' y
    | Fail => dec s (x ++ y) = Fail
    | Crash => dec s (x ++ y) = Crash
    end.

Lemma feed_law {S A} inv (dec : S -> bytes -> outcome S A) : chunk_law inv dec ->
  forall pieces s, inv s -> dec s [] = More s [] \/ pieces <> [] -> reading (feed dec s [] pieces) = dec s (concat pieces).
Proof.
  intros L. induction pieces as [|p ps IH]; intros s I Hd.
  - destruct Hd as [Hd|Hd]; [|congruence]. cbn. now rewrite Hd.
  - cbn [feed concat app]. pose proof (L s p (concat ps) I) as Hl. destruct (dec s p) as [a s' r|s' r| |] eqn:E; cbn [reading].
    + now rewrite Hl.
    + destruct Hl as (-> & I' & ->). apply IH; [exact I'|]. left.
      pose proof (L s p [] I) as H2. rewrite E in H2. destruct H2 as (_ & _ & H2). rewrite app_nil_r, E in H2. now symmetry.
    + now rewrite Hl.
    + now rewrite Hl.
Qed.

Lemma line_law max : chunk_law (buf_ok max) (line_decode crlf max).
Proof.
  intros s x y I. rewrite (line_decode_cut max s x I), (line_decode_cut max s (x ++ y) I). rewrite app_assoc.
  pose proof (cut_app max (s ++ x) y) as C. destruct (cut_line max (s ++ x)) eqn:E; try (rewrite C; reflexivity).
  split; [reflexivity|]. split; [exact C|]. now rewrite (line_decode_cut max (s ++ x) y C).
Qed.
Lemma cut_rest max s l r : cut_line max s = CLine l r -> s = l ++ [13; 10] ++ r /\ good_line max l.
Proof.
  unfold cut_line. destruct (first_line s) as [[l' r']|] eqn:E; [|destruct (_ <? _); discriminate].
  destruct ((nlen l' + 2 <=? max) && utf8_valid l') eqn:G; [|discriminate]. intros [= -> ->].
  apply andb_true_iff in G as [G1 G2]. apply N.leb_le in G1. destruct (first_line_some _ _ _ E) as [E1 E2]. split; [exact E1|].
  split; [|split; assumption]. rewrite (first_line_here (l ++ [13; 10]) (length l)).
  - rewrite firstn_app, firstn_all, Nat.sub_diag. cbn [firstn]. rewrite app_nil_r. f_equal. f_equal.
    apply skipn_all2. rewrite app_length. cbn. lia.
  - rewrite skipn_app, skipn_all, Nat.sub_diag. reflexivity.
  - intros i Hi. destruct (at_crlf (l ++ [13; 10]) i) eqn:X; [|reflexivity].
    apply (at_app _ r) in X. rewrite <- app_assoc, <- E1, E2 in X by exact Hi. discriminate.
Qed.
Lemma cut_good max l r : good_line max l -> cut_line max (l ++ [13; 10] ++ r) = CLine l r.
Proof.
  intros (G1 & G2 & G3). unfold cut_line. rewrite app_assoc, (first_line_app _ r _ _ G1). cbn [app].
  replace (nlen l + 2 <=? max) with true by (symmetry; now apply N.leb_le). now rewrite G3.
Qed.

Lemma buf_nil max : 0 < max -> buf_ok max [].
Proof. intros H. split; [reflexivity|exact H]. Qed.

(** ** All lines *)
Lemma drain_lines max : 0 < max -> forall fuel buf data, buf_ok max buf -> (length data < fuel)%nat ->
  exists ls tail, buf ++ data = with_ends ls ++ tail /\ Forall (good_line max) ls /\
    ((drain fuel (line_decode crlf max) buf data = (ls, More tail []) /\ cut_line max tail = CMore) \/
     (drain fuel (line_decode crlf max) buf data = (ls, Fail) /\ cut_line max tail = CRefused)).
Proof.
  intros Hm. induction fuel as [|f IH]; intros buf data I Hf; [lia|]. cbn [drain]. rewrite (line_decode_cut max buf data I).
  destruct (cut_line max (buf ++ data)) as [l r| |] eqn:E.
  - destruct (cut_rest _ _ _ _ E) as [E1 G].
    assert (Hr : (length r < f)%nat).
    { pose proof (line_decode_cut max buf data I) as X. destruct I as [I1 I2].
      unfold cut_line in E. destruct (first_line (buf ++ data)) as [[l' r']|] eqn:E2; [|destruct (_ <? _); discriminate].
      pose proof (first_line_late _ _ _ _ I1 E2) as Y. destruct ((_ <=? _) && _); [|discriminate]. injection E as -> ->.
      assert (Z : length (buf ++ data) = length (l ++ [13; 10] ++ r)) by now rewrite E1. rewrite !app_length in Z. cbn in Z. lia. }
    destruct (IH [] r (buf_nil max Hm) Hr) as (ls & tail & A & B & C). cbn [app] in A.
    exists (l :: ls), tail. split; [rewrite E1, A; unfold with_ends; cbn [map concat]; now rewrite <- !app_assoc|].
    split; [now constructor|]. destruct C as [[-> C]|[-> C]]; [left|right]; auto.
  - exists [], (buf ++ data). split; [reflexivity|]. split; [constructor|]. left. auto.
  - exists [], (buf ++ data). split; [reflexivity|]. split; [constructor|]. right. auto.
Qed.
Lemma with_ends_app a b : with_ends (a ++ b) = with_ends a ++ with_ends b.
Proof. unfold with_ends. now rewrite map_app, concat_app. Qed.
Lemma cut_refused_app max tail t : cut_line max tail = CRefused -> cut_line max (tail ++ t) = CRefused.
Proof. intros H. pose proof (cut_app max tail t) as C. now rewrite H in C. Qed.
Lemma cut_more_ok max t : cut_line max t = CMore -> buf_ok max t.
Proof. intros H. pose proof (cut_app max t []) as C. rewrite H in C. exact C. Qed.

Lemma deliver_lines max : 0 < max -> forall pieces buf, buf_ok max buf ->
  exists ls tail, buf ++ concat pieces = with_ends ls ++ tail /\ Forall (good_line max) ls /\
    ((deliver (line_decode crlf max) buf [] pieces = (ls, More tail []) /\ cut_line max tail = CMore) \/
     (deliver (line_decode crlf max) buf [] pieces = (ls, Fail) /\ cut_line max tail = CRefused)).
Proof.
  intros Hm. induction pieces as [|p ps IH]; intros buf I.
  - exists [], buf. cbn. rewrite app_nil_r. split; [reflexivity|]. split; [constructor|]. left. split; [reflexivity|].
    destruct I as [I1 I2]. unfold cut_line. rewrite I1. destruct (N.ltb_spec (nlen buf) max); [reflexivity|lia].
  - cbn [deliver concat app]. destruct (drain_lines max Hm (S (length p)) buf p I (Nat.lt_succ_diag_r _)) as (ls & tail & A & B & [[-> C]|[-> C]]).
    + destruct (IH tail (cut_more_ok _ _ C)) as (ls2 & tail2 & A2 & B2 & C2).
      exists (ls ++ ls2), tail2. split; [rewrite app_assoc, A, with_ends_app, <- !app_assoc; now rewrite A2|].
      split; [apply Forall_app; auto|]. destruct C2 as [[-> C2]|[-> C2]]; [left|right]; auto.
    + exists ls, (tail ++ concat ps). split; [rewrite !app_assoc; now rewrite A|]. split; [exact B|]. right. split; [reflexivity|].
      now apply cut_refused_app.
Qed.
