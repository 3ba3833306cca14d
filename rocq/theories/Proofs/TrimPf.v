(** Trimming, by code points. *)
From Coq Require Import String NArith List Bool Lia.
From Coq Require Import ZArith ZifyBool ZifyNat ZifyN.
From Verif.Model Require Import Bytes Text.
From Verif.Spec Require Import ControlSpec CmdSpec TextSpec.
From Verif.Proofs Require Import TextProofs CmdProofs.
Import ListNotations.
Local Open Scope N_scope.
Ltac Zify.zify_post_hook ::= Z.div_mod_to_equations.

Definition spaces : list N :=
  [9; 10; 11; 12; 13; 32; 133; 160; 5760; 8192; 8193; 8194; 8195; 8196; 8197; 8198; 8199; 8200; 8201; 8202; 8232; 8233; 8239; 8287; 12288].
Lemma spaces_iff c : In c spaces <-> space c.
Proof.
  unfold space, spaces. cbn [In]. split; [intros H|intros H];
    repeat match goal with H : _ \/ _ |- _ => destruct H as [H|H] end; try contradiction; try lia.
Qed.
Lemma white_spaces : white_chars = map utf8_char spaces.
Proof. vm_compute. reflexivity. Qed.
Lemma space_white c : space c -> In (utf8_char c) white_chars.
Proof. intros H. rewrite white_spaces. apply in_map. now apply spaces_iff. Qed.
Lemma white_utf8 a : Forall space a -> white (utf8 a).
Proof.
  intros H. exists (map utf8_char a). split; [reflexivity|]. rewrite Forall_forall in *. intros w Hw.
  apply in_map_iff in Hw as (c & <- & Hc). now apply space_white, H.
Qed.

Lemma starts_at c s r : In s spaces -> scalar c -> starts_with (utf8_char s) (utf8_char c ++ r) = true -> c = s.
Proof.
  intros Hs Hc. unfold utf8_char at 2.
  destruct (N.ltb_spec c 128); [|destruct (N.ltb_spec c 2048); [|destruct (N.ltb_spec c 65536)]]; unfold scalar in Hc;
    unfold spaces in Hs; cbn [In] in Hs;
    repeat match goal with H : _ \/ _ |- _ => destruct H as [H|H]; [subst s|] end; try contradiction;
    match goal with |- starts_with (utf8_char ?n) _ = true -> _ => let v := eval vm_compute in (utf8_char n) in change (utf8_char n) with v end;
    cbn [app starts_with]; intros E; lia.
Qed.
Lemma ends_at c s r : In s spaces -> scalar c -> ends_with (utf8_char s) (r ++ utf8_char c) = true -> c = s.
Proof.
  intros Hs Hc. unfold ends_with. rewrite rev_app_distr. generalize (rev r). clear r. intros r. unfold utf8_char at 2.
  destruct (N.ltb_spec c 128); [|destruct (N.ltb_spec c 2048); [|destruct (N.ltb_spec c 65536)]]; unfold scalar in Hc;
    unfold spaces in Hs; cbn [In] in Hs;
    repeat match goal with H : _ \/ _ |- _ => destruct H as [H|H]; [subst s|] end; try contradiction;
    match goal with |- starts_with (rev (utf8_char ?n)) _ = true -> _ => let v := eval vm_compute in (rev (utf8_char n)) in change (rev (utf8_char n)) with v end;
    cbn [rev app starts_with]; intros E; lia.
Qed.
Lemma utf8_app a b : utf8 (a ++ b) = utf8 a ++ utf8 b.
Proof. unfold utf8. now rewrite map_app, concat_app. Qed.

Lemma trim_points a b c : Forall space a -> tight b -> Forall space c -> trim (utf8 (a ++ b ++ c)) = utf8 b.
Proof.
  intros Ha (Hs & Hf & Hl) Hc. apply trim_unique. exists (utf8 a), (utf8 c). split; [now rewrite !utf8_app|].
  split; [now apply white_utf8|]. split; [now apply white_utf8|]. intros w Hw. rewrite white_spaces in Hw.
  apply in_map_iff in Hw as (s & <- & Hw).
  assert (Hn : starts_with (utf8_char s) [] = false /\ ends_with (utf8_char s) [] = false).
  { assert (Q : forallb (fun s => negb (starts_with (utf8_char s) []) && negb (ends_with (utf8_char s) [])) spaces = true) by (vm_compute; reflexivity).
    rewrite forallb_forall in Q. specialize (Q s Hw). apply andb_true_iff in Q as [Q1 Q2]. now apply negb_true_iff in Q1, Q2. }
  split.
  - destruct b as [|x b]; [apply Hn|]. destruct (starts_with (utf8_char s) (utf8 (x :: b))) eqn:E; [|reflexivity]. exfalso.
    inversion Hs; subst. unfold utf8 in E. cbn [map List.concat] in E. apply starts_at in E; auto. subst x.
    apply (Hf s b eq_refl). now apply spaces_iff.
  - destruct (ends_with (utf8_char s) (utf8 b)) eqn:E; [|reflexivity]. exfalso.
    destruct b as [|x b _] using rev_ind; [unfold utf8 in E; cbn in E; destruct Hn; congruence|].
    rewrite utf8_app in E. unfold utf8 in E at 2. cbn [map List.concat] in E. rewrite app_nil_r in E.
    apply Forall_app in Hs as [_ Hx]. inversion Hx; subst. apply ends_at in E; auto. subst x.
    apply (Hl b s eq_refl). now apply spaces_iff.
Qed.

Lemma lower_letters b : (forall n, nth_error capitals n = Some b -> nth_error smalls n = Some (lower b)) /\ (~ In b capitals -> lower b = b).
Proof.
  split.
  - intros n H. assert (L : (n < 26)%nat) by (apply (nth_error_Some capitals); congruence).
    do 26 (destruct n as [|n]; [injection H as <-; reflexivity|]). lia.
  - intros H. unfold lower. destruct ((65 <=? b) && (b <=? 90)) eqn:E; [|reflexivity]. exfalso. apply H.
    assert (Q : b = 65 + N.of_nat (N.to_nat (b - 65))) by lia. set (n := N.to_nat (b - 65)) in Q.
    assert (Ln : (n < 26)%nat) by (unfold n; lia). clearbody n. subst b. clear -Ln.
    do 26 (destruct n as [|n]; [vm_compute; tauto|]). lia.
Qed.
