(** Numbers and pieces of text. *)
From Coq Require Import ZArith NArith List Bool Lia ZifyBool ZifyNat ZifyN.
From Verif.Model Require Import Bytes Text Mac Control Http.
From Verif.Spec Require Import ControlSpec TextSpec NumeralSpec HttpSpec.
From Verif.Proofs Require Import BytesFacts TextProofs TableJsonPf DecFacts ControlProofs TrimPf CmdProofs.
Import ListNotations.
Local Open Scope N_scope.

Lemma digit_chars : forall d, d < 36 ->
  nth_error small_digits (N.to_nat d) = Some (if d <? 10 then 48 + d else 87 + d) /\
  nth_error capital_digits (N.to_nat d) = Some (if d <? 10 then 48 + d else 55 + d).
Proof.
  assert (G : forallb (fun k => let d := N.of_nat k in
     match nth_error small_digits k, nth_error capital_digits k with
     | Some x, Some y => (x =? (if d <? 10 then 48 + d else 87 + d)) && (y =? (if d <? 10 then 48 + d else 55 + d))
     | _, _ => false end) (seq 0 36) = true) by (vm_compute; reflexivity).
  intros d H. rewrite forallb_forall in G. specialize (G (N.to_nat d)).
  assert (Hi : In (N.to_nat d) (seq 0 36)) by (apply in_seq; lia). specialize (G Hi). cbv zeta in G. rewrite N2Nat.id in G.
  destruct (nth_error small_digits (N.to_nat d)), (nth_error capital_digits (N.to_nat d)); try discriminate.
  apply andb_true_iff in G as [A B]. apply N.eqb_eq in A, B. now subst.
Qed.

Lemma digit_iff r d c : r <= 36 -> digit_val r c = Some d <-> digit r d c.
Proof.
  intros R. unfold digit. split.
  - unfold digit_val. cbv zeta. intros H.
    assert (D : d < r).
    { destruct (if (48 <=? c) && (c <=? 57) then Some (c - 48) else if (97 <=? c) && (c <=? 122) then Some (c - 87) else if (65 <=? c) && (c <=? 90) then Some (c - 55) else None) as [w|]; [|discriminate].
      destruct (w <? r) eqn:E; [|discriminate]. injection H as <-. lia. }
    split; [exact D|]. destruct (digit_chars d) as [-> ->]; [lia|].
    destruct ((48 <=? c) && (c <=? 57)) eqn:E1; [destruct (c - 48 <? r); [|discriminate]; injection H as <-; left; f_equal; destruct (c - 48 <? 10) eqn:E; lia|].
    destruct ((97 <=? c) && (c <=? 122)) eqn:E2; [destruct (c - 87 <? r); [|discriminate]; injection H as <-; left; f_equal; destruct (c - 87 <? 10) eqn:E; lia|].
    destruct ((65 <=? c) && (c <=? 90)) eqn:E3; [destruct (c - 55 <? r); [|discriminate]; injection H as <-; right; f_equal; destruct (c - 55 <? 10) eqn:E; lia|]. discriminate.
  - intros [D H]. destruct (digit_chars d) as [A B]; [lia|]. rewrite A, B in H. unfold digit_val. cbv zeta.
    assert (C : c = 48 + d /\ d < 10 \/ c = 87 + d /\ 10 <= d \/ c = 55 + d /\ 10 <= d).
    { destruct (d <? 10) eqn:E; destruct H as [H|H]; apply (f_equal (fun o => match o with Some x => x | None => 0 end)) in H; lia. }
    destruct C as [[-> C]|[[-> C]|[-> C]]].
    + replace ((48 <=? 48 + d) && (48 + d <=? 57)) with true by lia. replace (48 + d - 48) with d by lia. now replace (d <? r) with true by lia.
    + replace ((48 <=? 87 + d) && (87 + d <=? 57)) with false by lia. replace ((97 <=? 87 + d) && (87 + d <=? 122)) with true by lia.
      replace (87 + d - 87) with d by lia. now replace (d <? r) with true by lia.
    + replace ((48 <=? 55 + d) && (55 + d <=? 57)) with false by lia. replace ((97 <=? 55 + d) && (55 + d <=? 122)) with false by lia.
      replace ((65 <=? 55 + d) && (55 + d <=? 90)) with true by lia. replace (55 + d - 55) with d by lia. now replace (d <? r) with true by lia.
Qed.

Lemma digits_iff r s : r <= 36 -> forall acc v,
  digits_val r s acc = Some v <-> exists ds, Forall2 (digit r) ds s /\ v = acc * r ^ N.of_nat (length ds) + positional r ds.
Proof.
  intros R. induction s as [|c s IH]; intros acc v; cbn [digits_val].
  - split.
    + intros [= <-]. exists []. split; [constructor|]. cbn [length positional]. change (N.of_nat 0) with 0. rewrite N.pow_0_r. lia.
    + intros (ds & F & ->). inversion F; subst. cbn [length positional]. change (N.of_nat 0) with 0. rewrite N.pow_0_r. f_equal. lia.
  - split.
    + destruct (digit_val r c) as [d|] eqn:E; [|discriminate]. intros H. apply IH in H as (ds & F & ->). apply digit_iff in E; [|exact R].
      exists (d :: ds). split; [now constructor|]. cbn [length positional]. rewrite Nat2N.inj_succ, N.pow_succ_r'. lia.
    + intros (ds & F & ->). inversion F as [|d ? ds' ? Hd Hs]; subst. apply digit_iff in Hd; [|exact R]. rewrite Hd.
      apply IH. exists ds'. split; [exact Hs|]. cbn [length positional]. rewrite Nat2N.inj_succ, N.pow_succ_r'. lia.
Qed.

Lemma numeral_iff r s v : r <= 36 -> numeral r s v <-> s <> [] /\ digits_val r s 0 = Some v.
Proof.
  intros R. unfold numeral. rewrite digits_iff by exact R. split.
  - intros (ds & Hn & F & ->). split; [intros ->; inversion F; subst; contradiction|]. exists ds. split; [exact F|lia].
  - intros (Hn & ds & F & ->). exists ds. split; [intros ->; inversion F; subst; contradiction|]. split; [exact F|lia].
Qed.

Lemma plus_digit r : digit_val r 43 = None.
Proof. reflexivity. Qed.

Lemma number_iff r max s v : r <= 36 ->
  parse_uint r max s = Some v <-> v <= max /\ (numeral r s v \/ exists s', s = 43 :: s' /\ numeral r s' v).
Proof.
  intros R. split.
  - unfold parse_uint. cbv zeta. destruct s as [|c s]; [discriminate|].
    destruct (N.eq_dec c 43) as [->|Hc].
    + destruct s as [|c2 s]; [cbn [digits_val]; rewrite plus_digit; discriminate|].
      destruct (digits_val r (c2 :: s) 0) as [w|] eqn:E; [|discriminate]. destruct (w <=? max) eqn:M; [|discriminate].
      intros [= <-]. split; [lia|]. right. exists (c2 :: s). split; [reflexivity|]. apply numeral_iff; [exact R|]. split; [discriminate|exact E].
    + change (parse_uint r max (c :: s) = Some v -> v <= max /\ (numeral r (c :: s) v \/ exists s', c :: s = 43 :: s' /\ numeral r s' v)).
      rewrite parse_uint_plain by exact Hc. destruct (digits_val r (c :: s) 0) as [w|] eqn:E; [|discriminate]. destruct (w <=? max) eqn:M; [|discriminate].
      intros [= <-]. split; [lia|]. left. apply numeral_iff; [exact R|]. split; [discriminate|exact E].
  - intros [M [H|(s' & -> & H)]]; apply numeral_iff in H; try exact R; destruct H as [Hn H].
    + destruct s as [|c s]; [contradiction|]. destruct (N.eq_dec c 43) as [->|Hc]; [cbn [digits_val] in H; rewrite plus_digit in H; discriminate|].
      rewrite parse_uint_plain by exact Hc. rewrite H. now replace (v <=? max) with true by lia.
    + destruct s' as [|c s']; [contradiction|]. unfold parse_uint. cbv zeta. rewrite H. now replace (v <=? max) with true by lia.
Qed.

(** Printed numbers *)
Lemma dec_lead : forall f n, n < 2 ^ N.of_nat f -> forall r, print_dec_fuel (S f) n = 48 :: r -> r = [] /\ n = 0.
Proof.
  induction f as [|f IH]; intros n H r E.
  - change (2 ^ N.of_nat 0) with 1 in H. assert (n = 0) by lia. subst n. cbn in E. injection E as <-. auto.
  - rewrite Nat2N.inj_succ, N.pow_succ_r' in H. remember (S f) as g. cbn [print_dec_fuel] in E. destruct (n <? 10) eqn:L.
    + pose proof (f_equal (hd 0) E) as E1. pose proof (f_equal (@tl N) E) as E2. cbn [hd tl] in E1, E2. split; [now symmetry|lia].
    + exfalso. assert (Q : n / 10 < 2 ^ N.of_nat f) by (apply N.div_lt_upper_bound; lia).
      subst g. pose proof (proj2 (proj2 (dec_fuel f (n / 10) Q))) as Hne.
      destruct (print_dec_fuel (S f) (n / 10)) as [|b s] eqn:P; [contradiction|]. injection E as -> E.
      destruct (IH (n / 10) Q s P) as [_ Z]. apply N.div_small_iff in Z; lia.
Qed.
Lemma decimal n : numeral 10 (print_dec n) n /\ (forall r, print_dec n = 48 :: r -> r = []).
Proof.
  split; [apply numeral_iff; [lia|]; split; [apply dec_some|apply dec_value]|].
  intros r E. exact (proj1 (dec_lead _ _ (size_bound n) _ E)).
Qed.
Lemma hexadecimal b : b < 256 -> length (hex2 b) = 2%nat /\ Forall (fun c => In c small_digits) (hex2 b) /\ numeral 16 (hex2 b) b.
Proof.
  intros H. split; [reflexivity|]. split.
  - assert (G : forallb (fun k => forallb (fun c => existsb (N.eqb c) small_digits) (hex2 (N.of_nat k))) (seq 0 256) = true) by (vm_compute; reflexivity).
    rewrite forallb_forall in G. specialize (G (N.to_nat b)). assert (Hi : In (N.to_nat b) (seq 0 256)) by (apply in_seq; lia). specialize (G Hi).
    rewrite N2Nat.id in G. rewrite forallb_forall in G. apply Forall_forall. intros c Hc. apply G in Hc. apply existsb_exists in Hc as (x & Hx & E). apply N.eqb_eq in E. now subst.
  - pose proof (hex2_parse b H) as P. apply number_iff in P; [|lia]. destruct P as [_ [P|(s' & E & P)]]; [exact P|].
    exfalso. unfold hex2 in E. apply (f_equal (hd 0)) in E. cbn [hd] in E. unfold hex_digit in E. destruct (b / 16 <? 10); lia.
Qed.

(** Positions *)
Lemma found_iff c s n : find_char c s = Some n <-> exists a b, s = a ++ c :: b /\ ~ In c a /\ n = length a.
Proof. split; [apply find_char_some|]. intros (a & b & -> & H & ->). now apply find_char_app. Qed.
Lemma rfound_iff c s n : rfind_char c s = Some n <-> exists a b, s = a ++ c :: b /\ ~ In c b /\ n = length a.
Proof. split; [apply rfind_char_some|]. intros (a & b & -> & H & ->). now apply rfind_char_app. Qed.

(** Pieces *)
Lemma between_cons c p l : l <> [] -> between c (p :: l) = p ++ c :: between c l.
Proof. destruct l as [|q l]; [contradiction|]. intros _. reflexivity. Qed.
Lemma split_iff c s l : split_on c s = l <-> l <> [] /\ Forall (fun p => ~ In c p) l /\ s = between c l.
Proof.
  assert (F : forall s, split_on c s <> [] /\ Forall (fun p => ~ In c p) (split_on c s) /\ s = between c (split_on c s)).
  { clear. induction s as [|b s (A & B & C)].
    - cbn [split_on]. split; [discriminate|]. split; [constructor; [auto|constructor]|reflexivity].
    - cbn [split_on]. destruct (N.eqb_spec b c) as [->|Hb].
      + split; [discriminate|]. split; [constructor; [auto|exact B]|]. rewrite between_cons by exact A. cbn [app]. now rewrite <- C.
      + destruct (split_on c s) as [|p ps]; [contradiction|]. inversion B; subst. split; [discriminate|]. split; [|reflexivity].
        constructor; [|assumption]. intros [->|Hi]; auto. }
  split; [intros <-; apply F|].
  intros (Hn & Hf & ->). induction l as [|p l IH]; [contradiction|]. inversion Hf; subst.
  destruct l as [|q l]; [cbn [between map concat]; rewrite app_nil_r; now apply split_none|].
  rewrite between_cons by discriminate. rewrite split_app by assumption. f_equal. apply IH; [discriminate|assumption].
Qed.

(** Letters *)
Lemma letter_chars : forall i, (i < 26)%nat -> nth_error capitals i = Some (65 + N.of_nat i) /\ nth_error smalls i = Some (97 + N.of_nat i).
Proof.
  assert (G : forallb (fun i => match nth_error capitals i, nth_error smalls i with Some x, Some y => (x =? 65 + N.of_nat i) && (y =? 97 + N.of_nat i) | _, _ => false end) (seq 0 26) = true) by (vm_compute; reflexivity).
  intros i H. rewrite forallb_forall in G. specialize (G i). assert (Hi : In i (seq 0 26)) by (apply in_seq; lia). specialize (G Hi).
  destruct (nth_error capitals i), (nth_error smalls i); try discriminate. apply andb_true_iff in G as [A B]. apply N.eqb_eq in A, B. now subst.
Qed.
Lemma letter_range i x : nth_error capitals i = Some x \/ nth_error smalls i = Some x -> (i < 26)%nat.
Proof. intros [H|H]; change 26%nat with (length capitals); [|change (length capitals) with (length smalls)]; apply nth_error_Some; rewrite H; discriminate. Qed.
Lemma same_letter_iff x y : lower x = lower y <-> same_letter x y.
Proof.
  unfold same_letter. split.
  - unfold lower. intros H. destruct ((65 <=? x) && (x <=? 90)) eqn:A, ((65 <=? y) && (y <=? 90)) eqn:B; [left; lia| | |left; lia].
    + right. exists (N.to_nat (x - 65)). left. destruct (letter_chars (N.to_nat (x - 65))) as [-> ->]; [lia|]. split; f_equal; lia.
    + right. exists (N.to_nat (y - 65)). right. destruct (letter_chars (N.to_nat (y - 65))) as [-> ->]; [lia|]. split; f_equal; lia.
  - intros [->|(i & [[A B]|[A B]])]; [reflexivity| |].
    + pose proof (letter_range _ _ (or_introl A)) as R. destruct (letter_chars i R) as [C D]. assert (x = 65 + N.of_nat i) by congruence. assert (y = 97 + N.of_nat i) by congruence. subst x y. clear - R. unfold lower.
      replace ((65 <=? 65 + N.of_nat i) && (65 + N.of_nat i <=? 90)) with true by lia. replace ((65 <=? 97 + N.of_nat i) && (97 + N.of_nat i <=? 90)) with false by lia. lia.
    + pose proof (letter_range _ _ (or_introl B)) as R. destruct (letter_chars i R) as [C D]. assert (y = 65 + N.of_nat i) by congruence. assert (x = 97 + N.of_nat i) by congruence. subst x y. clear - R. unfold lower.
      replace ((65 <=? 65 + N.of_nat i) && (65 + N.of_nat i <=? 90)) with true by lia. replace ((65 <=? 97 + N.of_nat i) && (97 + N.of_nat i <=? 90)) with false by lia. lia.
Qed.
Lemma ignore_case_iff a b : eq_ignore_case a b = true <-> Forall2 same_letter a b.
Proof.
  unfold eq_ignore_case. rewrite beq_spec. revert b. induction a as [|x a IH]; intros [|y b]; cbn [map]; split; intros H; try discriminate; try (now inversion H); try constructor.
  - apply same_letter_iff. now injection H.
  - apply IH. now injection H.
  - inversion H; subst. f_equal; [now apply same_letter_iff|now apply IH].
Qed.

(** MAC addresses *)
Lemma of_be_positional l : of_be l = positional 256 l.
Proof.
  unfold of_be. assert (G : forall l acc, fold_left (fun a b => a * 256 + b) l acc = acc * 256 ^ N.of_nat (length l) + positional 256 l).
  { clear. induction l as [|b l IH]; intros acc; cbn [fold_left length positional]; [change (N.of_nat 0) with 0; rewrite N.pow_0_r; lia|].
    rewrite IH, Nat2N.inj_succ, N.pow_succ_r'. lia. }
  rewrite G. lia.
Qed.
Lemma to_be_positional k n : length (to_be k n) = k /\ (n < 256 ^ N.of_nat k -> positional 256 (to_be k n) = n).
Proof.
  assert (A : forall l b, positional 256 (l ++ [b]) = positional 256 l * 256 + b).
  { intros l b. rewrite <- !of_be_positional. unfold of_be. now rewrite fold_left_app. }
  revert n. induction k as [|k IH]; intros n; cbn [to_be].
  - split; [reflexivity|]. change (N.of_nat 0) with 0. rewrite N.pow_0_r. cbn [positional]. lia.
  - destruct (IH (n / 256)) as [L P]. split; [rewrite app_length, L; cbn [length]; lia|]. rewrite Nat2N.inj_succ, N.pow_succ_r'. intros H.
    rewrite A, P by (apply N.div_lt_upper_bound; lia). pose proof (N.div_mod n 256). lia.
Qed.
Lemma all_some_iff {A} (l : list (option A)) r : all_some l = Some r <-> l = map Some r.
Proof.
  revert r. induction l as [|[x|] l IH]; intros r; cbn [all_some].
  - split; [intros [= <-]; reflexivity|]. destruct r; [reflexivity|discriminate].
  - destruct (all_some l) as [q|] eqn:E.
    + split; [intros [= <-]; cbn [map]; f_equal; now apply IH|]. destruct r as [|y r]; [discriminate|]. cbn [map]. intros [= -> H]. apply IH in H. now injection H as ->.
    + split; [discriminate|]. destruct r as [|y r]; [discriminate|]. cbn [map]. intros [= -> H]. apply IH in H. discriminate.
  - split; [discriminate|]. destruct r; discriminate.
Qed.
Lemma mac_iff s m : mac_parse s = Some m <->
  exists ps os, length ps = 6%nat /\ s = between 58 ps /\ m = positional 256 os /\
    Forall2 (fun p o => o < 256 /\ (numeral 16 p o \/ exists q, p = 43 :: q /\ numeral 16 q o)) ps os.
Proof.
  unfold mac_parse. cbv zeta.
  assert (R : 16 <= 36) by lia.
  assert (C43 : forall q o, numeral 16 q o -> ~ In 58 q).
  { intros q o (ds & _ & F & _) Hi. clear - F Hi. induction F as [|d c ds q Hd F IH]; [contradiction|]. destruct Hi as [->|Hi]; [|auto].
    apply (proj2 (digit_iff 16 d 58 ltac:(lia))) in Hd. discriminate. }
  split.
  - destruct (nlen (map (parse_uint 16 255) (split_on 58 s)) =? 6) eqn:L; [|discriminate].
    destruct (all_some (map (parse_uint 16 255) (split_on 58 s))) as [os|] eqn:E; [|discriminate]. intros [= <-].
    apply all_some_iff in E. exists (split_on 58 s), os. destruct (proj1 (split_iff 58 s (split_on 58 s)) eq_refl) as (_ & _ & B).
    split; [unfold nlen in L; rewrite map_length in L; lia|]. split; [exact B|]. split; [apply of_be_positional|].
    clear - E R. remember (split_on 58 s) as ps. clear Heqps. revert os E. induction ps as [|p ps IH]; intros [|o os] E; cbn [map] in E; try discriminate; constructor.
    + injection E as E _. apply number_iff in E; [|exact R]. destruct E as [M E]. split; [lia|exact E].
    + apply IH. now injection E.
  - intros (ps & os & L & -> & -> & F).
    assert (S : split_on 58 (between 58 ps) = ps).
    { apply split_iff. split; [intros ->; discriminate|]. split; [|reflexivity]. clear - F C43. induction F as [|p o ps os [_ H] F IH]; constructor; [|exact IH].
      destruct H as [H|(q & -> & H)]; [eauto|]. intros [X|X]; [discriminate|]. exact (C43 _ _ H X). }
    rewrite S. unfold nlen. rewrite map_length, L. change (N.of_nat 6 =? 6) with true. cbv iota.
    assert (A : all_some (map (parse_uint 16 255) ps) = Some os).
    { apply all_some_iff. clear - F R. induction F as [|p o ps os [M H] F IH]; [reflexivity|]. cbn [map]. f_equal; [|exact IH]. apply number_iff; [exact R|]. split; [lia|exact H]. }
    rewrite A. f_equal. apply of_be_positional.
Qed.

(** Header fields *)
Lemma bare_field l : ~ In 58 l -> field_parse l = {| hf_name := trim l; hf_value := None |}.
Proof. intros H. unfold field_parse. apply find_char_none in H. now rewrite H. Qed.
Lemma continued cps : Forall scalar cps -> (continuation (utf8 cps) = true <-> exists c r, cps = c :: r /\ space c).
Proof.
  intros Hs. unfold continuation. rewrite negb_true_iff.
  assert (E : beq (trim_start (utf8 cps)) (utf8 cps) = false <-> trim_start (utf8 cps) <> utf8 cps).
  { rewrite <- beq_spec. destruct (beq _ _); split; congruence. }
  rewrite E. clear E. unfold trim_start.
  destruct (strip_spec white_chars white_ne (length (utf8 cps)) (utf8 cps)) as (l & H1 & H2 & H3); [lia|].
  remember (strip_fuel (length (utf8 cps)) white_chars (utf8 cps)) as t. clear Heqt. split.
  - intros Hn. destruct l as [|w l]; [cbn [concat app] in H1; congruence|]. inversion H2 as [|? ? Hw _]; subst. rewrite white_spaces in Hw. apply in_map_iff in Hw as (c' & <- & Hc').
    destruct cps as [|c r].
    + exfalso. cbn in H1. destruct (utf8_char c') eqn:U; [|discriminate]. unfold utf8_char in U.
      destruct (c' <? 128); [discriminate|]. destruct (c' <? 2048); [discriminate|]. destruct (c' <? 65536); discriminate.
    + exists c, r. split; [reflexivity|]. inversion Hs; subst. change (utf8 (c :: r)) with (utf8_char c ++ utf8 r) in H1.
      assert (c = c') as -> by (apply (starts_at c c' (utf8 r) Hc'); [assumption|]; rewrite H1; apply starts_with_iff; cbn [concat]; rewrite <- app_assoc; eauto).
      now apply spaces_iff.
  - intros (c & r & -> & Hc) Ht. rewrite Ht in H3. specialize (H3 (utf8_char c) (space_white c Hc)).
    assert (X : starts_with (utf8_char c) (utf8 (c :: r)) = true) by (apply starts_with_iff; exists (utf8 r); reflexivity). congruence.
Qed.
