(** Slicing strings. *)
From Coq Require Import NArith List Bool Lia.
From Coq Require Import ZArith ZifyBool ZifyNat ZifyN.
From Verif.Model Require Import Bytes Text Utf8.
From Verif.Spec Require Import ControlSpec.
From Verif.Proofs Require Import ControlProofs.
Import ListNotations.
Local Open Scope N_scope.
Ltac Zify.zify_post_hook ::= Z.div_mod_to_equations.

Definition continuation (b : N) : Prop := 128 <= b <= 191.
Lemma char_shape c : scalar c -> exists x l, utf8_char c = x :: l /\ ~ continuation x /\ Forall continuation l.
Proof.
  unfold scalar, utf8_char, continuation. intros H.
  destruct (N.ltb_spec c 128); [exists c, []; repeat split; [lia|constructor]|].
  destruct (N.ltb_spec c 2048); [eexists _, _; split; [reflexivity|]; split; [lia|repeat constructor; lia]|].
  destruct (N.ltb_spec c 65536); eexists _, _; (split; [reflexivity|]); split; try lia; repeat constructor; lia.
Qed.

Lemma boundary_split cps : forall i, Forall scalar cps -> (i <= length (concat (map utf8_char cps)))%nat ->
  boundary (concat (map utf8_char cps)) i = true -> exists c1 c2, cps = c1 ++ c2 /\ length (concat (map utf8_char c1)) = i.
Proof.
  induction cps as [|c cps IH]; intros i F L B.
  - exists [], []. cbn in L |- *. split; [reflexivity|lia].
  - inversion F as [|c' cps' Hc Hs]; subst. destruct (Nat.eq_dec i 0) as [->|Hi]; [exists [], (c :: cps); auto|].
    cbn [map concat] in L, B. destruct (Nat.lt_ge_cases i (length (utf8_char c))) as [Lt|Ge].
    + exfalso. unfold boundary in B. rewrite nth_error_app1 in B by exact Lt.
      destruct (char_shape c Hc) as (x & l & E & _ & Fl). rewrite E in B, Lt. destruct i as [|i]; [lia|]. cbn [nth_error length] in B, Lt.
      destruct (nth_error l i) as [b|] eqn:Eb; [|apply nth_error_None in Eb; lia].
      apply nth_error_In in Eb. rewrite Forall_forall in Fl. specialize (Fl b Eb). unfold continuation in Fl.
      replace (Nat.eqb (S i) 0) with false in B by reflexivity. cbn [orb] in B. lia.
    + rewrite app_length in L. destruct (IH (i - length (utf8_char c))%nat Hs) as (c1 & c2 & E1 & E2); [lia| |].
      * unfold boundary in B |- *. destruct (Nat.eqb_spec (i - length (utf8_char c)) 0) as [|N0]; [reflexivity|]. cbn [orb].
        rewrite nth_error_app2 in B by exact Ge. replace (Nat.eqb i 0) with false in B by (symmetry; apply Nat.eqb_neq; exact Hi). cbn [orb] in B.
        destruct (nth_error _ _); [exact B|]. rewrite app_length in B. apply Nat.eqb_eq in B. apply Nat.eqb_eq. lia.
      * exists (c :: c1), c2. split; [now rewrite E1|]. cbn [map concat]. rewrite app_length, E2. lia.
Qed.

Lemma text_boundary p q : utf8_text q -> boundary (p ++ q) (length p) = true.
Proof.
  intros (cps & F & ->). unfold boundary. destruct cps as [|c cps].
  - cbn [map concat]. rewrite app_nil_r. rewrite (proj2 (nth_error_None p (length p))) by lia. rewrite Nat.eqb_refl. apply orb_true_r.
  - inversion F as [|c' cps' Hc Hs]; subst. cbn [map concat]. destruct (char_shape c Hc) as (x & l & E & Nx & _). rewrite E.
    rewrite nth_error_app2 by lia. rewrite Nat.sub_diag. cbn [app nth_error]. unfold continuation in Nx.
    replace (negb ((128 <=? x) && (x <=? 191))) with true by lia. apply orb_true_r.
Qed.

Lemma text_of cps : Forall scalar cps -> utf8_valid (concat (map utf8_char cps)) = true.
Proof. intros F. apply utf8_text_iff. exists cps. auto. Qed.

Lemma text_cut s i : utf8_valid s = true -> (i <= length s)%nat -> boundary s i = true ->
  utf8_valid (firstn i s) = true /\ utf8_valid (skipn i s) = true.
Proof.
  intros V L B. apply utf8_text_iff in V as (cps & F & ->). destruct (boundary_split _ _ F L B) as (c1 & c2 & -> & E).
  apply Forall_app in F as [F1 F2]. rewrite map_app, concat_app, <- E, firstn_app, Nat.sub_diag, firstn_all, skipn_app, skipn_all, Nat.sub_diag.
  cbn [firstn skipn]. rewrite app_nil_r. split; apply text_of; assumption.
Qed.

Lemma boundary_rest s a b : (a <= b)%nat -> boundary s b = true -> boundary (skipn a s) (b - a) = true.
Proof.
  intros L. unfold boundary. destruct (Nat.eqb_spec (b - a) 0) as [|H]; [reflexivity|].
  replace (Nat.eqb b 0) with false by (symmetry; apply Nat.eqb_neq; lia). cbn [orb].
  assert (X : nth_error (skipn a s) (b - a) = nth_error s b).
  { clear - L. revert b L. induction a as [|a IH] in s |- *; intros b L; [now rewrite Nat.sub_0_r|].
    destruct b as [|b]; [lia|]. destruct s as [|x s]; [cbn; now destruct (b - a)%nat|]. cbn [skipn nth_error Nat.sub]. apply IH. lia. }
  rewrite X, skipn_length. destruct (nth_error s b) eqn:E; [auto|]. intros Y. apply Nat.eqb_eq in Y. apply Nat.eqb_eq. lia.
Qed.

Lemma slices s a b : utf8_valid s = true ->
  (exists p x q, s = p ++ x ++ q /\ length p = a /\ length (p ++ x) = b /\
     utf8_valid p = true /\ utf8_valid x = true /\ utf8_valid q = true /\ slice s a b = ROk x) \/
  (slice s a b = RPanic /\
   forall p x q, s = p ++ x ++ q -> length p = a -> length (p ++ x) = b ->
     utf8_valid p = true -> utf8_valid x = true -> utf8_valid q = true -> False).
Proof.
  intros V. unfold slice. destruct (Nat.leb a b && Nat.leb b (length s) && boundary s a && boundary s b) eqn:E; [left|right].
  - apply andb_true_iff in E as [E Bb]. apply andb_true_iff in E as [E Ba]. apply andb_true_iff in E as [La Lb].
    apply Nat.leb_le in La, Lb. destruct (text_cut s a V ltac:(lia) Ba) as [V1 V2].
    destruct (text_cut (skipn a s) (b - a) V2) as [V3 V4]; [rewrite skipn_length; lia|apply boundary_rest; assumption|].
    exists (firstn a s), (firstn (b - a) (skipn a s)), (skipn (b - a) (skipn a s)). rewrite !firstn_skipn. split; [reflexivity|].
    split; [rewrite firstn_length; lia|]. split; [rewrite app_length, !firstn_length, skipn_length; lia|]. auto.
  - split; [reflexivity|]. intros p x q -> <- <- Vp Vx Vq. apply utf8_text_iff in Vq, Vx.
    rewrite !app_length in E. replace (Nat.leb (length p) (length p + length x)) with true in E by (symmetry; apply Nat.leb_le; lia).
    replace (Nat.leb (length p + length x) (length p + (length x + length q))) with true in E by (symmetry; apply Nat.leb_le; lia).
    rewrite <- app_length in E. cbn [andb] in E. rewrite text_boundary in E.
    + rewrite app_assoc, text_boundary in E by exact Vq. discriminate E.
    + apply utf8_text_iff. destruct Vx as (c1 & F1 & ->), Vq as (c2 & F2 & ->). rewrite <- concat_app, <- map_app.
      apply text_of. now apply Forall_app.
Qed.
