(** Facts about text handling. *)
From Coq Require Import NArith List Bool Lia.
From Coq Require Import ZArith ZifyBool ZifyNat ZifyN.
From Verif.Model Require Import Bytes Text Utf8.
Import ListNotations.
Local Open Scope N_scope.

Lemma find_char_app c a b : ~ In c a -> find_char c (a ++ c :: b) = Some (length a).
Proof.
  induction a as [|x a IH]; intros H; cbn [app find_char length]; [now rewrite N.eqb_refl|].
  destruct (N.eqb_spec x c) as [->|]; [exfalso; apply H; now left|]. rewrite IH by (intros Hi; apply H; now right). reflexivity.
Qed.
Lemma find_char_none c a : find_char c a = None <-> ~ In c a.
Proof.
  induction a as [|x a IH]; cbn [find_char]; [split; auto|]. destruct (N.eqb_spec x c) as [->|Hn].
  - split; [discriminate|intros H; exfalso; apply H; now left].
  - destruct (find_char c a); cbn [option_map].
    + split; [discriminate|]. intros H. exfalso. apply H. right. destruct IH as [_ IH].
      destruct (in_dec N.eq_dec c a) as [|Hc]; [auto|]. specialize (IH Hc). discriminate.
    + split; [|auto]. intros _ [->|Hi]; [contradiction|]. apply IH; auto.
Qed.
Lemma find_char_some c s n : find_char c s = Some n -> exists a b, s = a ++ c :: b /\ ~ In c a /\ n = length a.
Proof.
  revert n. induction s as [|x s IH]; intros n H; cbn [find_char] in H; [discriminate|].
  destruct (N.eqb_spec x c) as [->|Hn].
  - injection H as <-. exists [], s. auto.
  - destruct (find_char c s) as [m|]; [|discriminate]. injection H as <-.
    destruct (IH m eq_refl) as (a & b & -> & Hi & ->). exists (x :: a), b. repeat split. intros [->|]; auto.
Qed.
Lemma rfind_char_none c a : rfind_char c a = None <-> ~ In c a.
Proof.
  induction a as [|x a IH]; cbn [rfind_char]; [split; auto|]. destruct (rfind_char c a).
  - split; [discriminate|]. intros H. exfalso. apply H. right. destruct IH as [_ IH].
    destruct (in_dec N.eq_dec c a) as [|Hc]; [auto|]. specialize (IH Hc). discriminate.
  - destruct (N.eqb_spec x c) as [->|Hn].
    + split; [discriminate|intros H; exfalso; apply H; now left].
    + split; [|auto]. intros _ [->|Hi]; [contradiction|]. apply IH; auto.
Qed.
Lemma rfind_char_app c a b : ~ In c b -> rfind_char c (a ++ c :: b) = Some (length a).
Proof.
  intros H. induction a as [|x a IH]; cbn [app rfind_char length].
  - apply rfind_char_none in H. rewrite H, N.eqb_refl. reflexivity.
  - rewrite IH. reflexivity.
Qed.
Lemma rfind_char_some c s n : rfind_char c s = Some n -> exists a b, s = a ++ c :: b /\ ~ In c b /\ n = length a.
Proof.
  revert n. induction s as [|x s IH]; intros n H; cbn [rfind_char] in H; [discriminate|].
  destruct (rfind_char c s) as [m|] eqn:E.
  - injection H as <-. destruct (IH m eq_refl) as (a & b & -> & Hi & ->). exists (x :: a), b. auto.
  - destruct (N.eqb_spec x c) as [->|]; [|discriminate]. injection H as <-. exists [], s. repeat split. now apply rfind_char_none.
Qed.

Lemma starts_with_iff p s : starts_with p s = true <-> exists r, s = p ++ r.
Proof.
  revert s. induction p as [|a p IH]; intros s; cbn [starts_with app].
  - split; [eauto|auto].
  - destruct s as [|b s].
    + split; [discriminate|intros [r H]; discriminate].
    + rewrite andb_true_iff, N.eqb_eq, IH. split.
      * intros (-> & r & ->). exists r. reflexivity.
      * intros [r [= -> ->]]. split; [auto|]. eauto.
Qed.
Lemma ends_with_iff p s : ends_with p s = true <-> exists r, s = r ++ p.
Proof.
  unfold ends_with. rewrite starts_with_iff. split.
  - intros [r H]. exists (rev r). rewrite <- (rev_involutive s), H, rev_app_distr, rev_involutive. reflexivity.
  - intros [r ->]. exists (rev r). apply rev_app_distr.
Qed.
Lemma ends_with_tail c x a b : ends_with [c] (a ++ x :: b) = ends_with [c] (x :: b).
Proof.
  unfold ends_with. rewrite rev_app_distr. cbn [rev app].
  destruct (rev b ++ [x]) as [|y l] eqn:E; [destruct (rev b); discriminate|]. cbn [app starts_with].
  destruct l; reflexivity.
Qed.

(** Cuts next to ASCII characters are character boundaries. *)
Lemma valid_step b t : utf8_valid (b :: t) = true ->
  (b <= 127 /\ utf8_valid t = true) \/
  (128 <= b /\ exists m r, t = m ++ r /\ utf8_valid r = true /\ Forall (fun x => 128 <= x <= 191) m).
Proof.
  cbn [utf8_valid]. unfold between, cont, between. intros H.
  destruct (N.leb_spec b 127) as [Hb|Hb]; [left; auto|right]. split; [lia|].
  destruct ((194 <=? b) && (b <=? 223)) eqn:E1.
  { destruct t as [|b1 t1]; [discriminate|]. apply andb_true_iff in H as [H1 H2].
    exists [b1], t1. repeat split; auto. constructor; [lia|constructor]. }
  destruct ((224 <=? b) && (b <=? 239)) eqn:E2.
  { destruct t as [|b1 [|b2 t2]]; try discriminate. apply andb_true_iff in H as [H1 H3]. apply andb_true_iff in H1 as [H1 H2].
    exists [b1; b2], t2. repeat split; auto. repeat constructor; try lia;
    destruct (b =? 224); destruct (b =? 237); lia. }
  destruct ((240 <=? b) && (b <=? 244)) eqn:E3; [|discriminate].
  destruct t as [|b1 [|b2 [|b3 t3]]]; try discriminate.
  apply andb_true_iff in H as [H1 H4]. apply andb_true_iff in H1 as [H1 H3]. apply andb_true_iff in H1 as [H1 H2].
  exists [b1; b2; b3], t3. repeat split; auto. repeat constructor; try lia; destruct (b =? 240); destruct (b =? 244); lia.
Qed.

Lemma valid_first b t : utf8_valid (b :: t) = true -> ~ (128 <= b <= 191).
Proof.
  cbn [utf8_valid]. unfold between. intros H Hb.
  destruct (N.leb_spec b 127); [lia|]. replace ((194 <=? b) && (b <=? 223)) with false in H by lia.
  replace ((224 <=? b) && (b <=? 239)) with false in H by lia. replace ((240 <=? b) && (b <=? 244)) with false in H by lia. discriminate.
Qed.

(** The rest of a valid string behind an ASCII character is valid. *)
Lemma valid_after a : forall c b, utf8_valid (a ++ c :: b) = true -> c <= 127 -> utf8_valid b = true /\ utf8_valid (c :: b) = true.
Proof.
  remember (length a) as n eqn:En. revert a En. induction n as [n IH] using lt_wf_ind. intros a -> c b H Hc.
  destruct a as [|x a]; cbn [app] in H.
  - split; [|exact H]. apply valid_step in H as [[_ H]|[H _]]; [auto|lia].
  - apply valid_step in H as [[_ H]|(Hx & m & r & Hm & Hr & Hf)].
    + refine (IH (length a) _ a eq_refl c b H Hc). cbn; lia.
    + (* the ASCII character is not inside of the multi-byte character *)
      revert Hm Hf IH. clear Hx. revert a. induction m as [|y m IHm]; intros a Hm Hf IH.
      * cbn in Hm. subst r. refine (IH (length a) _ a eq_refl c b Hr Hc). cbn; lia.
      * inversion Hf; subst. destruct a as [|z a]; cbn [app] in Hm; injection Hm as <- Hm.
        { lia. }
        apply (IHm a); auto. intros k Hk. apply IH. cbn in *; lia.
Qed.

Lemma boundary_at a c b : utf8_valid (a ++ c :: b) = true -> c <= 127 ->
  boundary (a ++ c :: b) (length a) = true /\ boundary (a ++ c :: b) (length a + 1) = true.
Proof.
  intros H Hc. pose proof (valid_after a c b H Hc) as [Hb _]. unfold boundary. split.
  - rewrite nth_error_app2 by lia. rewrite PeanoNat.Nat.sub_diag. cbn [nth_error]. lia.
  - rewrite nth_error_app2 by lia. replace (length a + 1 - length a)%nat with 1%nat by lia. cbn [nth_error].
    destruct b as [|x b]; cbn [nth_error].
    + rewrite app_length. cbn [length]. rewrite PeanoNat.Nat.eqb_refl. apply orb_true_r.
    + apply valid_first in Hb. lia.
Qed.
Lemma boundary_0 s : boundary s 0 = true.
Proof. reflexivity. Qed.
Lemma boundary_end s : boundary s (length s) = true.
Proof.
  unfold boundary. replace (nth_error s (length s)) with (@None N) by (symmetry; now apply nth_error_None).
  rewrite PeanoNat.Nat.eqb_refl. apply orb_true_r.
Qed.

Lemma slice_mid s a m b : s = a ++ m ++ b -> boundary s (length a) = true -> boundary s (length a + length m) = true ->
  slice s (length a) (length a + length m) = ROk m.
Proof.
  intros E Ha Hb. unfold slice. rewrite Ha, Hb.
  replace (Nat.leb (length a) (length a + length m)) with true by lia.
  replace (Nat.leb (length a + length m) (length s)) with true by (rewrite E, !app_length; lia). cbn [andb].
  replace (length a + length m - length a)%nat with (length m) by lia.
  rewrite E, skipn_app, skipn_all, PeanoNat.Nat.sub_diag. cbn [skipn app]. rewrite firstn_app, firstn_all, PeanoNat.Nat.sub_diag.
  cbn [firstn]. now rewrite app_nil_r.
Qed.
Lemma slice_mid' s i j a m b : s = a ++ m ++ b -> i = length a -> j = (length a + length m)%nat ->
  boundary s i = true -> boundary s j = true -> slice s i j = ROk m.
Proof. intros E -> ->. exact (slice_mid s a m b E). Qed.
