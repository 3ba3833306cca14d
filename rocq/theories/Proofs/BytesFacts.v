(** Lemmas about big-endian images and slices. *)
From Coq Require Import NArith ZArith List Bool Lia ZifyBool ZifyNat ZifyN.
From Verif.Model Require Import Bytes.
Import ListNotations.
Local Open Scope N_scope.
Ltac Zify.zify_post_hook ::= Z.div_mod_to_equations.

Lemma to_be_length k n : length (to_be k n) = k.
Proof.
  revert n; induction k as [|k IH]; intros n; cbn [to_be]; [reflexivity|].
  rewrite app_length, IH; cbn [length]; lia.
Qed.

Lemma to_be_wf k n : wf_bytes (to_be k n).
Proof.
  revert n; induction k as [|k IH]; intros n; cbn [to_be]; [constructor|].
  apply Forall_app; split; [apply IH|].
  constructor; [|constructor]. apply N.mod_lt; discriminate.
Qed.

Lemma of_be_snoc l b : of_be (l ++ [b]) = of_be l * 256 + b.
Proof. unfold of_be. rewrite fold_left_app. reflexivity. Qed.

Lemma of_be_nil : of_be [] = 0. Proof. reflexivity. Qed.

Lemma pow256_S k : 256 ^ N.of_nat (S k) = 256 * 256 ^ N.of_nat k.
Proof. rewrite Nat2N.inj_succ, N.pow_succ_r'. reflexivity. Qed.

Lemma of_be_to_be k n : of_be (to_be k n) = n mod 256 ^ N.of_nat k.
Proof.
  revert n; induction k as [|k IH]; intros n.
  - cbn [to_be]. rewrite N.mod_1_r. reflexivity.
  - cbn [to_be]. rewrite of_be_snoc, IH, pow256_S.
    pose proof (N.pow_nonzero 256 (N.of_nat k) ltac:(discriminate)) as Hnz.
    rewrite N.mod_mul_r by (try discriminate; assumption). lia.
Qed.

Lemma of_be_to_be_small k n : n < 256 ^ N.of_nat k -> of_be (to_be k n) = n.
Proof. intros H. rewrite of_be_to_be. apply N.mod_small; exact H. Qed.

Lemma to_be_of_be l : wf_bytes l -> to_be (length l) (of_be l) = l.
Proof.
  induction l as [|b l IH] using rev_ind; intros Hwf; [reflexivity|].
  apply Forall_app in Hwf; destruct Hwf as [Hl Hb]. inversion Hb as [|? ? Hb' _]; subst.
  rewrite app_length; cbn [length]. rewrite Nat.add_comm; cbn [Nat.add to_be].
  rewrite of_be_snoc.
  replace ((of_be l * 256 + b) / 256) with (of_be l) by lia.
  replace ((of_be l * 256 + b) mod 256) with b by lia.
  rewrite IH by exact Hl. reflexivity.
Qed.

Lemma of_be_bound l : wf_bytes l -> of_be l < 256 ^ N.of_nat (length l).
Proof.
  induction l as [|b l IH] using rev_ind; intros Hwf; [cbn; lia|].
  apply Forall_app in Hwf; destruct Hwf as [Hl Hb]. inversion Hb as [|? ? Hb' _]; subst.
  rewrite app_length; cbn [length]. rewrite Nat.add_comm; cbn [Nat.add].
  rewrite of_be_snoc, pow256_S. specialize (IH Hl). lia.
Qed.

Lemma to_be_mod k n : to_be k (n mod 256 ^ N.of_nat k) = to_be k n.
Proof.
  rewrite <- (of_be_to_be k n).
  rewrite <- (to_be_length k n) at 1. apply to_be_of_be, to_be_wf.
Qed.

Lemma to_be_inj k m n : m < 256 ^ N.of_nat k -> n < 256 ^ N.of_nat k -> to_be k m = to_be k n -> m = n.
Proof.
  intros Hm Hn H. rewrite <- (of_be_to_be_small k m Hm), <- (of_be_to_be_small k n Hn), H. reflexivity.
Qed.

(** Slices *)
Lemma field_app_here (a b : bytes) n : n = length a -> field (a ++ b) 0 n = a.
Proof.
  intros ->. unfold field. cbn [skipn]. rewrite firstn_app, Nat.sub_diag, firstn_all. cbn [firstn]. apply app_nil_r.
Qed.

Lemma field_app_skip (a b : bytes) off n :
  (length a <= off)%nat -> field (a ++ b) off n = field b (off - length a) n.
Proof.
  intros H. unfold field. rewrite skipn_app. rewrite skipn_all2 by exact H. reflexivity.
Qed.

Lemma field_length l off n : (off + n <= length l)%nat -> length (field l off n) = n.
Proof. intros H. unfold field. rewrite firstn_length, skipn_length. lia. Qed.

Lemma wf_firstn n l : wf_bytes l -> wf_bytes (firstn n l).
Proof.
  unfold wf_bytes. rewrite !Forall_forall. intros H x Hx. apply H.
  rewrite <- (firstn_skipn n l). apply in_or_app; left; exact Hx.
Qed.

Lemma wf_skipn n l : wf_bytes l -> wf_bytes (skipn n l).
Proof.
  unfold wf_bytes. rewrite !Forall_forall. intros H x Hx. apply H.
  rewrite <- (firstn_skipn n l). apply in_or_app; right; exact Hx.
Qed.

Lemma wf_field l off n : wf_bytes l -> wf_bytes (field l off n).
Proof. intros H. apply wf_firstn, wf_skipn, H. Qed.

Lemma wf_app a b : wf_bytes a -> wf_bytes b -> wf_bytes (a ++ b).
Proof. intros; apply Forall_app; split; assumption. Qed.

Lemma skipn_skipn' {A} x y (l : list A) : skipn x (skipn y l) = skipn (y + x) l.
Proof.
  revert l; induction y as [|y IH]; intros l; [reflexivity|].
  destruct l as [|a l]; [rewrite !skipn_nil; reflexivity|]. cbn [skipn Nat.add]. apply IH.
Qed.

Lemma field_split l off n m : field l off (n + m) = field l off n ++ field l (off + n) m.
Proof.
  unfold field. rewrite <- skipn_skipn'.
  set (t := skipn off l). clearbody t. revert t; induction n as [|n IH]; intros t; [reflexivity|].
  destruct t as [|x t]; [cbn; rewrite firstn_nil; reflexivity|].
  cbn [firstn skipn Nat.add app]. f_equal. apply IH.
Qed.

Lemma field_all l : field l 0 (length l) = l.
Proof. unfold field. cbn [skipn]. apply firstn_all. Qed.

Lemma nlen_app {A} (a b : list A) : nlen (a ++ b) = nlen a + nlen b.
Proof. unfold nlen. rewrite app_length. lia. Qed.

Lemma nlen_cons {A} (x : A) l : nlen (x :: l) = 1 + nlen l.
Proof. unfold nlen. cbn [length]. lia. Qed.

Lemma nlen_nil {A} : nlen (@nil A) = 0. Proof. reflexivity. Qed.

Lemma beq_spec a b : beq a b = true <-> a = b.
Proof.
  revert b; induction a as [|x a IH]; intros [|y b]; cbn [beq]; split; intros H; try discriminate; try reflexivity.
  - apply andb_true_iff in H; destruct H as [H1 H2]. apply N.eqb_eq in H1. apply IH in H2. congruence.
  - inversion H; subst. rewrite N.eqb_refl. apply IH; reflexivity.
Qed.

Lemma beq_refl a : beq a a = true. Proof. apply beq_spec; reflexivity. Qed.

Lemma land_mask24 s : N.land s 16777215 = s mod 2 ^ 24.
Proof. change 16777215 with (N.ones 24). apply N.land_ones. Qed.

Lemma land_mask24_lt s : N.land s 16777215 < 2 ^ 24.
Proof. rewrite land_mask24. apply N.mod_lt; discriminate. Qed.

Lemma firstn_app_exact {A} n (a b : list A) : n = length a -> firstn n (a ++ b) = a.
Proof. intros ->. rewrite firstn_app, Nat.sub_diag, firstn_all. cbn [firstn]. apply app_nil_r. Qed.

Lemma skipn_app_exact {A} n (a b : list A) : n = length a -> skipn n (a ++ b) = b.
Proof. intros ->. rewrite skipn_app, Nat.sub_diag, skipn_all. reflexivity. Qed.

Lemma cons_eq {A} (x y : A) l l' : x = y -> l = l' -> x :: l = y :: l'.
Proof. intros -> ->; reflexivity. Qed.
