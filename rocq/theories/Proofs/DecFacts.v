(** Decimal numbers. *)
From Coq Require Import ZArith NArith List Bool Lia ZifyBool ZifyNat ZifyN.
From Verif.Model Require Import Bytes Text.
From Verif.Proofs Require Import TableJsonPf.
Import ListNotations.
Local Open Scope N_scope.

Definition is_digit (b : N) : Prop := 48 <= b <= 57.

Lemma size_bound n : n < 2 ^ N.of_nat (N.size_nat n).
Proof.
  destruct n as [|p]; [reflexivity|]. cbn [N.size_nat].
  induction p as [p IH|p IH|]; cbn [Pos.size_nat]; [| |reflexivity]; rewrite Nat2N.inj_succ, N.pow_succ_r'; lia.
Qed.

Lemma digits_val_app r s t acc : digits_val r (s ++ t) acc = match digits_val r s acc with Some v => digits_val r t v | None => None end.
Proof. revert acc. induction s as [|b s IH]; intros acc; cbn [digits_val app]; [reflexivity|]. destruct (digit_val r b); [apply IH|reflexivity]. Qed.

Lemma digit_of d : d < 10 -> digit_val 10 (48 + d) = Some d.
Proof.
  intros H. unfold digit_val. replace ((48 <=? 48 + d) && (48 + d <=? 57)) with true by lia.
  replace (48 + d - 48) with d by lia. replace (d <? 10) with true by lia. reflexivity.
Qed.

Lemma dec_fuel : forall f n, n < 2 ^ N.of_nat f ->
  Forall is_digit (print_dec_fuel (S f) n) /\ digits_val 10 (print_dec_fuel (S f) n) 0 = Some n /\ print_dec_fuel (S f) n <> [].
Proof.
  induction f as [|f IH]; intros n H.
  - change (2 ^ N.of_nat 0) with 1 in H. assert (n = 0) by lia. subst n. cbn [print_dec_fuel N.ltb N.compare N.add]. split; [constructor; [unfold is_digit; lia|constructor]|split; [reflexivity|discriminate]].
  - rewrite Nat2N.inj_succ, N.pow_succ_r' in H. remember (S f) as g. cbn [print_dec_fuel]. destruct (n <? 10) eqn:E.
    + split; [constructor; [unfold is_digit; lia|constructor]|split; [|discriminate]]. cbn [digits_val]. rewrite digit_of by lia. reflexivity.
    + destruct (IH (n / 10)) as (A & B & C).
      { apply N.div_lt_upper_bound; lia. }
      assert (M : n mod 10 < 10) by (apply N.mod_lt; lia). pose proof (N.div_mod n 10) as D. generalize dependent (n mod 10). generalize dependent (n / 10). intros q A B C m Hm D.
      split; [|split].
      * apply Forall_app. split; [assumption|]. constructor; [unfold is_digit; lia|constructor].
      * rewrite digits_val_app, B. cbn [digits_val]. rewrite digit_of by assumption. f_equal. lia.
      * intros X. now apply app_eq_nil in X as [_ X].
Qed.

Lemma dec_digits n : Forall is_digit (print_dec n).
Proof. apply dec_fuel, size_bound. Qed.
Lemma dec_value n : digits_val 10 (print_dec n) 0 = Some n.
Proof. apply dec_fuel, size_bound. Qed.
Lemma dec_some n : print_dec n <> [].
Proof. apply dec_fuel, size_bound. Qed.
Lemma dec_parse n max : n <= max -> parse_uint 10 max (print_dec n) = Some n.
Proof.
  intros H. pose proof (dec_digits n) as D. pose proof (dec_value n) as V. pose proof (dec_some n) as S.
  destruct (print_dec n) as [|b s]; [congruence|]. inversion D as [|? ? Hb Hs]; subst. unfold is_digit in Hb.
  rewrite parse_uint_plain by lia. rewrite V. now replace (n <=? max) with true by lia.
Qed.
