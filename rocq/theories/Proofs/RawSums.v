(** Raw packets: checksums. *)
From Coq Require Import NArith ZArith List Bool Lia ZifyBool ZifyNat ZifyN.
From Verif.Model Require Import Bytes Raw.
From Verif.Spec Require Import RawSpec.
From Verif.Proofs Require Import BytesFacts.
Import ListNotations.
Local Open Scope N_scope.

Definition total (l : list N) : N := fold_right N.add 0 l.
Definition plain (l : bytes) : N := total (words16 l).

Lemma two_ind (P : bytes -> Prop) : P [] -> (forall a, P [a]) -> (forall a b l, P l -> P (a :: b :: l)) -> forall l, P l.
Proof.
  intros H0 H1 H2 l. assert (X : P l /\ forall a, P (a :: l)); [|tauto].
  induction l as [|b l [IH1 IH2]]; [auto|]. split; [apply IH2|]. intros a. now apply H2.
Qed.

Lemma sum_be_plain : forall l acc, acc < 2 ^ 32 -> sum_be l acc = (acc + plain l) mod 2 ^ 32.
Proof.
  induction l as [|a|a b l IH] using two_ind; intros acc Ha.
  - cbn [sum_be]. unfold plain. cbn. rewrite N.add_0_r, N.mod_small by assumption. reflexivity.
  - cbn [sum_be]. unfold plain, u32. cbn [words16 total fold_right]. now rewrite N.add_0_r.
  - cbn [sum_be]. rewrite IH by (apply N.mod_lt; discriminate). unfold plain, u32. cbn [words16 total fold_right].
    rewrite N.add_mod_idemp_l by discriminate. f_equal. fold (total (words16 l)). lia.
Qed.
Lemma plain_app : forall a b : bytes, nlen a mod 2 = 0 -> plain (a ++ b) = plain a + plain b.
Proof.
  induction a as [|x|x y a IH] using two_ind; intros b H.
  - reflexivity.
  - discriminate.
  - unfold plain in *. cbn [app words16 total fold_right]. fold (total (words16 (a ++ b))). fold (total (words16 a)). rewrite IH; [lia|].
    rewrite !nlen_cons in H. rewrite <- H. rewrite (N.add_assoc 1 1). change (1 + 1) with 2. rewrite <- N.add_mod_idemp_l by discriminate.
    change (2 mod 2) with 0. now rewrite N.add_0_l.
Qed.
Lemma words_bound : forall l : bytes, wf_bytes l -> Forall (fun w => w < 65536) (words16 l).
Proof.
  induction l as [|a|a b l IH] using two_ind; intros H; cbn [words16].
  - constructor.
  - inversion H; subst. constructor; [cbv beta in *; lia|constructor].
  - inversion H as [|? ? Ha H1]; subst. inversion H1 as [|? ? Hb H2]; subst. constructor; [cbv beta in *; lia|now apply IH].
Qed.
Lemma words_count : forall l : bytes, 2 * nlen (words16 l) <= nlen l + 1.
Proof.
  induction l as [|a|a b l IH] using two_ind; cbn [words16]; [discriminate|discriminate|rewrite !nlen_cons; lia].
Qed.
Lemma total_bound : forall l, Forall (fun w => w < 65536) l -> total l <= 65535 * nlen l.
Proof. induction 1 as [|w l Hw H IH]; cbn [total fold_right]; [discriminate|fold (total l); rewrite nlen_cons; lia]. Qed.
Lemma plain_bound : forall l, wf_bytes l -> 2 * plain l <= 65535 * (nlen l + 1).
Proof. intros l H. pose proof (total_bound _ (words_bound _ H)). pose proof (words_count l). unfold plain. lia. Qed.

(** ** Folding *)
Lemma div_zero : forall s, (s / 2 ^ 16 =? 0) = (s <? 65536).
Proof. intros s. change (2 ^ 16) with 65536. destruct (N.ltb_spec s 65536) as [H|H]; [rewrite N.div_small by assumption; reflexivity|]. apply N.eqb_neq. intros E. apply N.div_small_iff in E; [lia|discriminate]. Qed.
Lemma fold_value : forall s, s < 2 ^ 32 -> exists k, fold_sum 3 s < 65536 /\ s = fold_sum 3 s + 65535 * k /\ (fold_sum 3 s = 0 -> s = 0).
Proof.
  intros s Hs. change (2 ^ 32) with 4294967296 in Hs.
  assert (D : forall x, x = 65536 * (x / 65536) + x mod 65536) by (intros; apply N.div_mod; discriminate).
  assert (M : forall x, x mod 65536 < 65536) by (intros; apply N.mod_lt; discriminate).
  cbn [fold_sum]. rewrite !div_zero. change (2 ^ 16) with 65536.
  destruct (N.ltb_spec s 65536) as [G|G]; [exists 0; lia|].
  pose proof (D s). pose proof (M s). set (s1 := s mod 65536 + s / 65536) in *.
  assert (B1 : s / 65536 < 65536) by (apply N.div_lt_upper_bound; lia).
  destruct (N.ltb_spec s1 65536) as [G1|G1]; [exists (s / 65536); unfold s1; lia|].
  pose proof (D s1). pose proof (M s1). set (s2 := s1 mod 65536 + s1 / 65536) in *.
  assert (B2 : s1 / 65536 <= 1). { assert (s1 / 65536 < 2) by (apply N.div_lt_upper_bound; lia). lia. }
  destruct (N.ltb_spec s2 65536) as [G2|G2]; [exists (s / 65536 + s1 / 65536); unfold s2, s1; lia|].
  exfalso. lia.
Qed.
Lemma checksum_value : forall s, s < 2 ^ 32 -> exists k, s + sum_to_checksum s = 65535 * (k + 1) /\ sum_to_checksum s <= 65535.
Proof.
  intros s Hs. destruct (fold_value s Hs) as (k & H1 & H2 & H3). exists k. unfold sum_to_checksum, u16.
  change (2 ^ 32) with 4294967296 in *. change (2 ^ 16) with 65536 in *.
  replace (4294967296 - 1 - fold_sum 3 s) with ((65535 - fold_sum 3 s) + 65535 * 65536) by lia.
  rewrite N.mod_add by discriminate. rewrite N.mod_small by lia. lia.
Qed.
Lemma fold_stable : forall f s, s < 2 ^ 32 -> fold_sum (3 + f) s = fold_sum 3 s.
Proof.
  intros f s Hs. destruct (fold_value s Hs) as (k & H1 & _).
  assert (S : forall g n x, fold_sum n x < 65536 -> fold_sum (n + g) x = fold_sum n x).
  { intros g n. induction n as [|n IH]; intros x Hx.
    - cbn [Nat.add fold_sum] in *. destruct g as [|g]; [reflexivity|]. cbn [fold_sum]. rewrite div_zero. destruct (N.ltb_spec x 65536); [reflexivity|lia].
    - cbn [Nat.add fold_sum] in *. destruct (x / 2 ^ 16 =? 0); [reflexivity|]. now apply IH. }
  now apply S.
Qed.

(** ** One's complement sums *)
Lemma oc_fold : forall l acc, acc <= 65535 -> Forall (fun w => w < 65536) l ->
  exists k, fold_left oc_add l acc <= 65535 /\ acc + total l = fold_left oc_add l acc + 65535 * k /\ (fold_left oc_add l acc = 0 -> acc + total l = 0).
Proof.
  induction l as [|w l IH]; intros acc Ha H; cbn [fold_left total fold_right].
  - exists 0. lia.
  - inversion H; subst. fold (total l). destruct (IH (oc_add acc w)) as (k & K1 & K2 & K3); [unfold oc_add; destruct (N.ltb_spec (acc + w) 65536); lia|assumption|].
    unfold oc_add in K2, K3 at 2. unfold oc_add in *. destruct (N.ltb_spec (acc + w) 65536).
    + exists k. lia.
    + exists (k + 1). lia.
Qed.
Lemma verifies_iff : forall l, wf_bytes l -> plain l <> 0 -> (verifies l <-> plain l mod 65535 = 0).
Proof.
  intros l H Hp. unfold verifies, ones_sum. destruct (oc_fold (words16 l) 0 ltac:(lia) (words_bound _ H)) as (k & K1 & K2 & K3).
  fold (plain l) in K2, K3. rewrite N.add_0_l in *. split; intros E.
  - rewrite K2, E. replace (65535 + 65535 * k) with ((k + 1) * 65535) by lia. apply N.mod_mul. discriminate.
  - rewrite K2 in E. rewrite (N.mul_comm 65535), N.mod_add in E by discriminate.
    destruct (N.eq_dec (fold_left oc_add (words16 l) 0) 65535) as [|N]; [assumption|]. rewrite N.mod_small in E by lia. lia.
Qed.

(** A message with its checksum: [a] has even length and [s] is the sum with a zero checksum. *)
Lemma checksum_verifies : forall a b s,
  wf_bytes a -> wf_bytes b -> nlen a mod 2 = 0 -> s < 2 ^ 32 -> s = plain a + plain b ->
  verifies (a ++ to_be 2 (sum_to_checksum s) ++ b).
Proof.
  intros a b s Ha Hb He Hs E. destruct (checksum_value s Hs) as (k & K1 & K2).
  assert (P2 : plain (to_be 2 (sum_to_checksum s)) = sum_to_checksum s).
  { unfold plain. cbn [to_be app words16 total fold_right]. pose proof (N.div_mod (sum_to_checksum s) 256 ltac:(discriminate)).
    assert (sum_to_checksum s / 256 < 256) by (apply N.div_lt_upper_bound; lia). rewrite (N.mod_small (sum_to_checksum s / 256)) by assumption. lia. }
  assert (PT : plain (a ++ to_be 2 (sum_to_checksum s) ++ b) = 65535 * (k + 1)).
  { rewrite plain_app by assumption. rewrite plain_app by reflexivity. rewrite P2. lia. }
  apply verifies_iff.
  - apply wf_app; [assumption|]. apply wf_app; [apply to_be_wf|assumption].
  - lia.
  - rewrite PT. rewrite N.mul_comm. apply N.mod_mul. discriminate.
Qed.
