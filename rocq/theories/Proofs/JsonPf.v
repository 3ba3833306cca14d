(** JSON text. *)
From Coq Require Import String NArith ZArith ZifyBool ZifyNat ZifyN List Bool Lia.
From Verif.Model Require Import Bytes Text TableJson JsonText.
From Verif.Spec Require Import JsonSpec.
From Verif.Proofs Require Import DecFacts.
Import ListNotations.
Local Open Scope N_scope.

Section Ind.
  Variable P : json -> Prop.
  Hypothesis Pn : P JNull.
  Hypothesis Pb : forall b, P (JBool b).
  Hypothesis Pz : forall z, P (JNum z).
  Hypothesis Ps : forall s, P (JStr s).
  Hypothesis Pa : forall l, Forall P l -> P (JArr l).
  Hypothesis Po : forall l, Forall (fun p => P (snd p)) l -> P (JObj l).
  Fixpoint json_nested (j : json) : P j :=
    match j with
    | JNull => Pn
    | JBool b => Pb b
    | JNum z => Pz z
    | JStr s => Ps s
    | JArr l => Pa l ((fix go l := match l return Forall P l with [] => Forall_nil _ | x :: r => Forall_cons x (json_nested x) (go r) end) l)
    | JObj l => Po l ((fix go l := match l return Forall (fun p => P (snd p)) l with [] => Forall_nil _ | x :: r => Forall_cons x (json_nested (snd x)) (go r) end) l)
    end.
End Ind.

Lemma strip_app p s r x : strip p s = Some r -> strip p (s ++ x) = Some (r ++ x).
Proof.
  revert s. induction p as [|a p IH]; intros s.
  - destruct s; intros E; injection E as <-; [now destruct x|reflexivity].
  - destruct s as [|b s]; cbn [strip app]; [discriminate|]. destruct (a =? b); [apply IH|discriminate].
Qed.
Lemma strip_own p r : strip p (p ++ r) = Some r.
Proof. induction p as [|a p IH]; [now destruct r|]. cbn [strip app]. rewrite N.eqb_refl. apply IH. Qed.

Lemma hexval_digit d : d < 16 -> hexval (hex_digit d) = Some d.
Proof.
  intros H. unfold hexval, hex_digit. destruct (N.ltb_spec d 10).
  - replace (48 <=? 48 + d) with true by lia. replace (48 + d <=? 57) with true by lia. cbn [andb]. f_equal. lia.
  - replace (48 <=? 87 + d) with true by lia. replace (87 + d <=? 57) with false by lia. cbn [andb].
    replace (97 <=? 87 + d) with true by lia. replace (87 + d <=? 102) with true by lia. cbn [andb]. f_equal. lia.
Qed.
Lemma unhex_own c r : c < 32 -> unhex (hex2 c ++ r) = Some (c, r).
Proof.
  intros H. unfold unhex, hex2. cbn [app]. assert (A : c / 16 < 2) by (apply N.div_lt_upper_bound; lia).
  pose proof (N.mod_lt c 16 ltac:(lia)) as B. rewrite !hexval_digit by lia. replace (c / 16 <? 8) with true by lia.
  do 2 f_equal. symmetry. apply N.div_mod. discriminate.
Qed.

Lemma esc_read c f q t r : jr_string f q = Some (t, r) -> jr_string (S f) (esc_byte c ++ q) = Some (c :: t, r).
Proof.
  intros H. unfold esc_byte.
  repeat match goal with |- context [if c =? ?k then _ else _] => destruct (N.eqb_spec c k); [subst c; cbn [app jr_string N.eqb Pos.eqb unescape orb]; rewrite H; reflexivity|] end.
  destruct (N.ltb_spec c 32) as [L|L].
  - cbn [app jr_string]. cbn [N.eqb Pos.eqb unescape orb strip]. rewrite unhex_own by exact L. rewrite H. reflexivity.
  - cbn [app jr_string]. replace (c =? 34) with false by lia. replace (c =? 92) with false by lia. replace (c <? 32) with false by lia.
    rewrite H. reflexivity.
Qed.
Lemma esc_length c : (1 <= length (esc_byte c))%nat.
Proof. unfold esc_byte. repeat match goal with |- context [if ?b then _ else _] => destruct b end; cbn; lia. Qed.
Lemma string_own : forall s f r, (length (flat_map esc_byte s) < f)%nat -> jr_string f (flat_map esc_byte s ++ 34 :: r) = Some (s, r).
Proof.
  induction s as [|c s IH]; intros f r H; (destruct f as [|f]; [lia|]); [reflexivity|].
  cbn [flat_map] in *. rewrite app_length in H. rewrite <- app_assoc. apply esc_read. apply IH. pose proof (esc_length c). lia.
Qed.

Definition ends (r : bytes) : Prop := match r with [] => True | c :: _ => digit c = false end.
Lemma digits_own d r : Forall is_digit d -> ends r -> jr_digits (d ++ r) = (d, r).
Proof.
  intros F E. induction F as [|c d D F IH]; cbn [app].
  - destruct r as [|c r]; cbn [jr_digits]; [reflexivity|]. cbn [ends] in E. now rewrite E.
  - cbn [jr_digits]. rewrite IH. replace (digit c) with true; [reflexivity|]. unfold is_digit in D. unfold digit. lia.
Qed.
Lemma dec_fold d : Forall is_digit d -> forall acc v, digits_val 10 d acc = Some v ->
  fold_left (fun a c => (10 * a + Z.of_N (c - 48))%Z) d (Z.of_N acc) = Z.of_N v.
Proof.
  induction 1 as [|c d D F IH]; intros acc v; cbn [digits_val fold_left].
  - intros E. injection E as <-. reflexivity.
  - unfold is_digit in D. assert (X : c = 48 + (c - 48)) by lia. rewrite X at 1. rewrite digit_of by lia. intros E.
    rewrite <- (IH _ _ E). f_equal. lia.
Qed.
Lemma number_own n r : ends r -> jr_number (print_dec n ++ r) = Some (Z.of_N n, r).
Proof.
  intros E. unfold jr_number. rewrite digits_own by (exact E || apply dec_digits). pose proof (dec_some n) as S.
  unfold dec_number. change 0%Z with (Z.of_N 0). rewrite (dec_fold _ (dec_digits n) 0 n (dec_value n)). now destruct (print_dec n).
Qed.

Lemma dump_some j : jdump j <> [].
Proof. destruct j as [|[]|z| | | ]; try discriminate. cbn [jdump]. unfold jnumber. destruct (z <? 0)%Z; [discriminate|apply dec_some]. Qed.
Lemma dump_length j : (1 <= length (jdump j))%nat.
Proof. pose proof (dump_some j). destruct (jdump j); [congruence|cbn; lia]. Qed.

Lemma join_cons (x : bytes) l : join [44] (x :: l) = match l with [] => x | _ => x ++ 44 :: join [44] l end.
Proof. now destruct l. Qed.
Lemma number_value f n r : ends r -> jr_value (S f) (print_dec n ++ r) = Some (JNum (Z.of_N n), r).
Proof.
  intros E. pose proof (dec_some n) as N0. pose proof (dec_digits n) as D. pose proof (number_own n r E) as X.
  destruct (print_dec n) as [|c d]; [congruence|]. apply Forall_inv in D. unfold is_digit in D. cbn [app] in *. cbn [jr_value].
  replace (c =? 110) with false by lia. replace (c =? 116) with false by lia. replace (c =? 102) with false by lia.
  replace (c =? 34) with false by lia. replace (c =? 91) with false by lia. replace (c =? 123) with false by lia. replace (c =? 45) with false by lia.
  rewrite X. reflexivity.
Qed.

Lemma dump_read : forall j f r, (2 * length (jdump j) <= f)%nat -> (no_number j = false -> ends r) -> jr_value f (jdump j ++ r) = Some (j, r).
Proof.
  induction j using json_nested; intros f r L E; (destruct f as [|f]; [pose proof (dump_length JNull); match type of L with (_ * length (jdump ?j) <= 0)%nat => pose proof (dump_length j) end; lia|]).
  - cbn [jdump]. change (lit "null" ++ r) with (110 :: lit "ull" ++ r). cbn [jr_value]. rewrite N.eqb_refl. now rewrite strip_own.
  - destruct b; cbn [jdump].
    + change (lit "true" ++ r) with (116 :: lit "rue" ++ r). cbn [jr_value]. change (116 =? 110) with false. cbv iota. rewrite N.eqb_refl. now rewrite strip_own.
    + change (lit "false" ++ r) with (102 :: lit "alse" ++ r). cbn [jr_value]. change (102 =? 110) with false. change (102 =? 116) with false. cbv iota. rewrite N.eqb_refl. now rewrite strip_own.
  - cbn [jdump no_number] in *. specialize (E eq_refl). unfold jnumber in *. destruct (Z.ltb_spec z 0).
    + cbn [app jr_value]. change (45 =? 110) with false. change (45 =? 116) with false. change (45 =? 102) with false. change (45 =? 34) with false.
      change (45 =? 91) with false. change (45 =? 123) with false. cbv iota. rewrite N.eqb_refl. rewrite number_own by exact E. cbn [option_map fst snd].
      do 3 f_equal. lia.
    + rewrite number_value by exact E. do 3 f_equal. lia.
  - cbn [jdump] in *. unfold jstring in *. cbn [app jr_value length] in *. change (34 =? 110) with false. change (34 =? 116) with false. change (34 =? 102) with false. cbv iota.
    rewrite N.eqb_refl. rewrite <- app_assoc. cbn [app]. rewrite app_length in L. cbn [length] in L. rewrite string_own by lia. reflexivity.
  - cbn [jdump] in *. cbn [app jr_value length] in *. change (91 =? 110) with false. change (91 =? 116) with false. change (91 =? 102) with false. change (91 =? 34) with false. cbv iota.
    rewrite N.eqb_refl. rewrite app_length in L. cbn [length] in L. rewrite <- app_assoc. cbn [app]. clear E.
    destruct l as [|x l]; [reflexivity|].
    assert (IT : forall l x g, Forall (fun j => forall f r, (2 * length (jdump j) <= f)%nat -> (no_number j = false -> ends r) -> jr_value f (jdump j ++ r) = Some (j, r)) (x :: l) ->
      (2 * length (join [44%N] (map jdump (x :: l))) + 1 <= g)%nat -> jr_items g (join [44] (map jdump (x :: l)) ++ 93 :: r) = Some (x :: l, r)).
    { clear. induction l as [|y l IH]; intros x g F L; (destruct g as [|g]; [lia|]); pose proof (Forall_inv F) as X; pose proof (Forall_inv_tail F) as F'.
      - cbn [map] in *. rewrite join_cons in *. cbn [jr_items]. rewrite X; [reflexivity|lia|reflexivity].
      - cbn [map] in *. rewrite join_cons in *. rewrite app_length in L. cbn [length] in L. rewrite <- app_assoc. cbn [jr_items]. cbn [app]. rewrite X; [|lia|reflexivity].
        change (44 =? 93) with false. cbv iota. rewrite N.eqb_refl. rewrite IH by (exact F' || (cbn [map]; lia)). reflexivity. }
    rewrite (IT l x f H) by lia. cbn [option_map fst snd].
    assert (Z : strip [93] (join [44] (map jdump (x :: l)) ++ 93 :: r) = None); [|now rewrite Z].
    cbn [map]. rewrite join_cons. set (t := match map jdump l with [] => jdump x | _ => jdump x ++ 44 :: join [44] (map jdump l) end).
    assert (W : exists c d, t = c :: d /\ c <> 93).
    { assert (D : exists c d, jdump x = c :: d /\ c <> 93).
      { clear. destruct x as [|[]|z|s|l|l]; try (eexists; eexists; split; [reflexivity|discriminate]). cbn [jdump]. unfold jnumber.
        destruct (z <? 0)%Z; [eexists; eexists; split; [reflexivity|lia]|]. pose proof (dec_some (Z.abs_N z)) as S. pose proof (dec_digits (Z.abs_N z)) as D.
        destruct (print_dec (Z.abs_N z)) as [|c d]; [congruence|]. apply Forall_inv in D. unfold is_digit in D. exists c, d. split; [reflexivity|lia]. }
      destruct D as [c [d [D C]]]. subst t. rewrite D. destruct (map jdump l); cbn [app]; eauto. }
    destruct W as [c [d [-> C]]]. cbn [app strip]. replace (93 =? c) with false by lia. reflexivity.
  - cbn [jdump] in *. cbn [app jr_value length] in *. change (123 =? 110) with false. change (123 =? 116) with false. change (123 =? 102) with false. change (123 =? 34) with false.
    change (123 =? 91) with false. cbv iota. rewrite N.eqb_refl. rewrite app_length in L. cbn [length] in L. rewrite <- app_assoc. cbn [app]. clear E.
    set (fd := fun p : bytes * json => jstring (fst p) ++ 58 :: jdump (snd p)) in *.
    destruct l as [|x l]; [reflexivity|].
    assert (ST : forall (x : bytes * json) q, fd x ++ q = 34 :: flat_map esc_byte (fst x) ++ 34 :: 58 :: jdump (snd x) ++ q).
    { intros y q. subst fd. cbv beta. unfold jstring. cbn [app]. rewrite <- !app_assoc. reflexivity. }
    assert (FL : forall x, length (fd x) = (length (flat_map esc_byte (fst x)) + length (jdump (snd x)) + 3)%nat).
    { intros y. subst fd. cbv beta. unfold jstring. rewrite !app_length. cbn [length]. rewrite app_length. cbn [length]. lia. }
    assert (IT : forall l x g, Forall (fun p => forall f r, (2 * length (jdump (snd p)) <= f)%nat -> (no_number (snd p) = false -> ends r) -> jr_value f (jdump (snd p) ++ r) = Some (snd p, r)) (x :: l) ->
      (2 * length (join [44%N] (map fd (x :: l))) + 1 <= g)%nat -> jr_fields g (join [44] (map fd (x :: l)) ++ 125 :: r) = Some (x :: l, r)).
    { clear - ST FL. clearbody fd. induction l as [|y l IH]; intros x g F L; (destruct g as [|g]; [lia|]); pose proof (Forall_inv F) as X; pose proof (Forall_inv_tail F) as F'.
      - cbn [map] in *. rewrite join_cons in *. rewrite FL in L. rewrite ST. cbn [jr_fields]. rewrite N.eqb_refl. rewrite string_own by lia. rewrite N.eqb_refl.
        rewrite X; [|lia|reflexivity]. rewrite N.eqb_refl. now destruct x.
      - cbn [map] in *. rewrite join_cons in *. rewrite app_length in L. rewrite FL in L. cbn [length] in L. rewrite <- app_assoc. rewrite ST. cbn [jr_fields]. rewrite N.eqb_refl.
        rewrite string_own by lia. rewrite N.eqb_refl. cbn [app].
        rewrite X; [|lia|reflexivity]. change (44 =? 125) with false. cbv iota. rewrite N.eqb_refl. rewrite IH by (exact F' || (cbn [map]; lia)). cbn [option_map fst snd]. now destruct x. }
    rewrite (IT l x f H) by lia. cbn [option_map fst snd].
    assert (Z : strip [125] (join [44] (map fd (x :: l)) ++ 125 :: r) = None); [|now rewrite Z].
    cbn [map]. rewrite join_cons. destruct (map fd l); [|rewrite <- app_assoc]; rewrite ST; reflexivity.
Qed.
Lemma dump_jread j : jread (jdump j) = Some j.
Proof. unfold jread. pose proof (dump_read j (2 * length (jdump j)) [] (le_n _) (fun _ => I)) as H. rewrite app_nil_r in H. now rewrite H. Qed.

(** More text does not change what was read before. *)
Lemma unescape_app s c r x : unescape s = Some (c, r) -> unescape (s ++ x) = Some (c, r ++ x).
Proof.
  destruct s as [|a s]; [discriminate|]. unfold unescape. cbn [app].
  repeat match goal with |- context [if ?b then _ else _] => destruct b; [intros E; try (injection E as <- <-; reflexivity)|] end; try discriminate.
  destruct (strip [48; 48] s) as [q|] eqn:S; [|discriminate]. rewrite (strip_app _ _ _ x S). revert E. unfold unhex.
  destruct q as [|u [|v q]]; try discriminate. cbn [app]. destruct (hexval u), (hexval v); try discriminate. destruct (_ <? _); [|discriminate].
  intros E. injection E as <- <-. reflexivity.
Qed.
Lemma string_app x : forall f s t r, jr_string f s = Some (t, r) -> jr_string f (s ++ x) = Some (t, r ++ x).
Proof.
  induction f as [|f IH]; [discriminate|]. intros [|c s] t r; [discriminate|]. cbn [app jr_string].
  destruct (c =? 34); [intros E; injection E as <- <-; reflexivity|]. destruct (c =? 92).
  - destruct (unescape s) as [[y s']|] eqn:U; [|discriminate]. rewrite (unescape_app _ _ _ x U). destruct (jr_string f s') as [[t' q]|] eqn:S; [|discriminate].
    rewrite (IH _ _ _ S). intros E. injection E as <- <-. reflexivity.
  - destruct (c <? 32); [discriminate|]. destruct (jr_string f s) as [[t' q]|] eqn:S; [|discriminate]. rewrite (IH _ _ _ S). intros E. injection E as <- <-. reflexivity.
Qed.
Lemma digits_app x s d r : jr_digits s = (d, r) -> r <> [] -> jr_digits (s ++ x) = (d, r ++ x).
Proof.
  revert d r. induction s as [|c s IH]; intros d r; cbn [app jr_digits]; [intros E; injection E as <- <-; congruence|].
  destruct (digit c).
  - destruct (jr_digits s) as [d' r'] eqn:S. cbn [fst snd]. intros E. injection E as <- <-. intros N0. rewrite (IH _ _ eq_refl N0). reflexivity.
  - intros E. injection E as <- <-. reflexivity.
Qed.
Lemma number_app x s z r : jr_number s = Some (z, r) -> r <> [] -> jr_number (s ++ x) = Some (z, r ++ x).
Proof.
  unfold jr_number. destruct (jr_digits s) as [d q] eqn:S. destruct d as [|a d]; [discriminate|]. intros E N0. assert (q = r) by congruence. subst q.
  rewrite (digits_app x _ _ _ S N0). injection E as <-. reflexivity.
Qed.
Lemma value_app x : forall f,
  (forall s v r, jr_value f s = Some (v, r) -> (r <> [] \/ no_number v = true) -> jr_value f (s ++ x) = Some (v, r ++ x)) /\
  (forall s v r, jr_items f s = Some (v, r) -> jr_items f (s ++ x) = Some (v, r ++ x)) /\
  (forall s v r, jr_fields f s = Some (v, r) -> jr_fields f (s ++ x) = Some (v, r ++ x)).
Proof.
  induction f as [|f [IV [II IF]]]; [repeat split; intros; discriminate|]. repeat split.
  - intros [|c s] v r; [discriminate|]. cbn [app jr_value].
    destruct (c =? 110); [destruct (strip _ s) eqn:S; [|discriminate]; rewrite (strip_app _ _ _ x S); intros E; injection E as <- <-; reflexivity|].
    destruct (c =? 116); [destruct (strip _ s) eqn:S; [|discriminate]; rewrite (strip_app _ _ _ x S); intros E; injection E as <- <-; reflexivity|].
    destruct (c =? 102); [destruct (strip _ s) eqn:S; [|discriminate]; rewrite (strip_app _ _ _ x S); intros E; injection E as <- <-; reflexivity|].
    destruct (c =? 34); [destruct (jr_string f s) as [[t q]|] eqn:S; [|discriminate]; rewrite (string_app x _ _ _ _ S); intros E; injection E as <- <-; reflexivity|].
    destruct (c =? 91).
    { destruct (strip [93] s) as [q|] eqn:S; [rewrite (strip_app _ _ _ x S); intros E; injection E as <- <-; reflexivity|].
      destruct (jr_items f s) as [[l q]|] eqn:Q; [|discriminate]. rewrite (II _ _ _ Q). intros E. injection E as <- <-. intros _.
      destruct s as [|a s]; [destruct f; [discriminate|cbn [jr_items] in Q]; destruct f; discriminate|].
      cbn [strip app] in *. destruct (93 =? a); [discriminate S|]. reflexivity. }
    destruct (c =? 123).
    { destruct (strip [125] s) as [q|] eqn:S; [rewrite (strip_app _ _ _ x S); intros E; injection E as <- <-; reflexivity|].
      destruct (jr_fields f s) as [[l q]|] eqn:Q; [|discriminate]. rewrite (IF _ _ _ Q). intros E. injection E as <- <-. intros _.
      destruct s as [|a s]; [destruct f; discriminate|].
      cbn [strip app] in *. destruct (125 =? a); [discriminate S|]. reflexivity. }
    destruct (c =? 45).
    { destruct (jr_number s) as [[z q]|] eqn:Q; [|discriminate]. intros E. injection E as <- <-. cbn [no_number]. intros [N0|N0]; [|discriminate].
      rewrite (number_app x _ _ _ Q N0). reflexivity. }
    change (c :: s ++ x) with ((c :: s) ++ x). destruct (jr_number (c :: s)) as [[z q]|] eqn:Q; [|discriminate]. intros E. injection E as <- <-. cbn [no_number]. intros [N0|N0]; [|discriminate].
    rewrite (number_app x _ _ _ Q N0). reflexivity.
  - intros s v r. cbn [jr_items]. destruct (jr_value f s) as [[w [|c q]]|] eqn:V; try discriminate. rewrite (IV _ _ _ V) by (left; discriminate). cbn [app].
    destruct (c =? 93); [intros E; injection E as <- <-; reflexivity|]. destruct (c =? 44); [|discriminate]. destruct (jr_items f q) as [[l q']|] eqn:Q; [|discriminate].
    rewrite (II _ _ _ Q). intros E. injection E as <- <-. reflexivity.
  - intros [|c0 s] v r; [discriminate|]. cbn [app jr_fields]. destruct (c0 =? 34); [|discriminate]. destruct (jr_string f s) as [[k [|c1 s2]]|] eqn:S; try discriminate.
    rewrite (string_app x _ _ _ _ S). cbn [app]. destruct (c1 =? 58); [|discriminate]. destruct (jr_value f s2) as [[w [|c q]]|] eqn:V; try discriminate.
    rewrite (IV _ _ _ V) by (left; discriminate). cbn [app].
    destruct (c =? 125); [intros E; injection E as <- <-; reflexivity|]. destruct (c =? 44); [|discriminate]. destruct (jr_fields f q) as [[l q']|] eqn:Q; [|discriminate].
    rewrite (IF _ _ _ Q). intros E. injection E as <- <-. reflexivity.
Qed.
(** More fuel does not change what was read. *)
Lemma string_fuel : forall f g s p, (f <= g)%nat -> jr_string f s = Some p -> jr_string g s = Some p.
Proof.
  induction f as [|f IH]; [discriminate|]. intros [|g] s p L; [lia|]. destruct s as [|c s]; [discriminate|]. cbn [jr_string].
  destruct (c =? 34); [auto|]. destruct (c =? 92).
  - destruct (unescape s) as [[y s']|]; [|discriminate]. destruct (jr_string f s') as [q|] eqn:S; [|discriminate]. now rewrite (IH g _ _ ltac:(lia) S).
  - destruct (c <? 32); [discriminate|]. destruct (jr_string f s) as [q|] eqn:S; [|discriminate]. now rewrite (IH g _ _ ltac:(lia) S).
Qed.
Lemma value_fuel : forall f,
  (forall g s p, (f <= g)%nat -> jr_value f s = Some p -> jr_value g s = Some p) /\
  (forall g s p, (f <= g)%nat -> jr_items f s = Some p -> jr_items g s = Some p) /\
  (forall g s p, (f <= g)%nat -> jr_fields f s = Some p -> jr_fields g s = Some p).
Proof.
  induction f as [|f [IV [II IF]]]; [repeat split; intros; discriminate|]. repeat split; intros [|g] s p L; try lia; apply le_S_n in L.
  - destruct s as [|c s]; [discriminate|]. cbn [jr_value].
    destruct (c =? 110); [auto|]. destruct (c =? 116); [auto|]. destruct (c =? 102); [auto|].
    destruct (c =? 34); [destruct (jr_string f s) as [q|] eqn:S; [|discriminate]; now rewrite (string_fuel f g _ _ L S)|].
    destruct (c =? 91); [destruct (strip _ s); [auto|]; destruct (jr_items f s) as [q|] eqn:S; [|discriminate]; now rewrite (II g _ _ L S)|].
    destruct (c =? 123); [destruct (strip _ s); [auto|]; destruct (jr_fields f s) as [q|] eqn:S; [|discriminate]; now rewrite (IF g _ _ L S)|].
    auto.
  - cbn [jr_items]. destruct (jr_value f s) as [[w [|c q]]|] eqn:V; try discriminate. rewrite (IV g _ _ L V).
    destruct (c =? 93); [auto|]. destruct (c =? 44); [|discriminate]. destruct (jr_items f q) as [q'|] eqn:Q; [|discriminate]. now rewrite (II g _ _ L Q).
  - destruct s as [|c0 s]; [discriminate|]. cbn [jr_fields]. destruct (c0 =? 34); [|discriminate]. destruct (jr_string f s) as [[k [|c1 s2]]|] eqn:S; try discriminate.
    rewrite (string_fuel f g _ _ L S). destruct (c1 =? 58); [|discriminate]. destruct (jr_value f s2) as [[w [|c q]]|] eqn:V; try discriminate. rewrite (IV g _ _ L V).
    destruct (c =? 125); [auto|]. destruct (c =? 44); [|discriminate]. destruct (jr_fields f q) as [q'|] eqn:Q; [|discriminate]. now rewrite (IF g _ _ L Q).
Qed.

(** A document other than a number that is not written completely is no document. *)
Lemma torn_text j p x : jdump j = p ++ x -> x <> [] -> no_number j = true -> jread p = None.
Proof.
  intros E N0 NN. unfold jread. destruct (jr_value (2 * length p) p) as [[v [|c r]]|] eqn:V; [exfalso|reflexivity|reflexivity].
  assert (W : no_number v = true).
  { destruct v as [| |z| | |]; try reflexivity. exfalso.
    destruct p as [|c p]; [discriminate V|]. destruct (2 * length (c :: p))%nat as [|f]; [discriminate V|]. cbn [jr_value] in V.
    assert (D : jdump j = c :: p ++ x) by exact E.
    destruct j as [|[]|z'|s|l|l]; cbn [jdump no_number] in *; try discriminate NN; injection D as <- D;
      change (110 =? 116) with false in V; cbn [N.eqb Pos.eqb] in V;
      try (destruct (strip _ p); discriminate V); try (destruct (jr_string f p); discriminate V);
      try (destruct (strip _ p); [discriminate V|]); try (destruct (jr_items f p); discriminate V); try (destruct (jr_fields f p); discriminate V). }
  apply (proj1 (value_app x _)) in V; [|now right]. cbn [app] in V.
  pose proof (dump_read j (2 * length (jdump j)) [] (le_n _) (fun _ => I)) as R. rewrite app_nil_r in R. rewrite E in R.
  apply (proj1 (value_fuel _) (2 * length (p ++ x))%nat) in V; [|rewrite app_length; lia]. rewrite V in R. congruence.
Qed.

(** No control characters *)
Definition visible_byte (c : N) : Prop := 32 <= c.
Lemma hex_visible d : visible_byte (hex_digit d).
Proof. unfold visible_byte, hex_digit. destruct (_ <? _); lia. Qed.
Lemma esc_visible c : Forall visible_byte (esc_byte c).
Proof.
  unfold esc_byte. repeat match goal with |- context [if ?b then _ else _] => destruct b eqn:? end; cbn [app hex2];
    repeat (apply Forall_cons; [try apply hex_visible; unfold visible_byte; lia|]); apply Forall_nil.
Qed.
Lemma string_visible s : Forall visible_byte (jstring s).
Proof.
  unfold jstring. constructor; [unfold visible_byte; lia|]. apply Forall_app. split; [|apply Forall_cons; [unfold visible_byte; lia|constructor]].
  induction s as [|c s IH]; [constructor|]. cbn [flat_map]. apply Forall_app. split; [apply esc_visible|exact IH].
Qed.
Lemma join_visible l : Forall (Forall visible_byte) l -> Forall visible_byte (join [44] l).
Proof.
  induction 1 as [|x l X F IH]; [constructor|]. rewrite join_cons. destruct l; [exact X|]. apply Forall_app. split; [exact X|]. constructor; [unfold visible_byte; lia|exact IH].
Qed.
Lemma dec_visible n : Forall visible_byte (print_dec n).
Proof. eapply Forall_impl; [|apply dec_digits]. unfold is_digit, visible_byte. intros. lia. Qed.
Lemma dump_visible : forall j, Forall visible_byte (jdump j).
Proof.
  induction j using json_nested; cbn [jdump].
  - repeat (apply Forall_cons; [now vm_compute|]); constructor.
  - destruct b; repeat (apply Forall_cons; [now vm_compute|]); constructor.
  - unfold jnumber. destruct (z <? 0)%Z; [constructor; [unfold visible_byte; lia|]|]; apply dec_visible.
  - apply string_visible.
  - constructor; [unfold visible_byte; lia|]. apply Forall_app. split; [|apply Forall_cons; [unfold visible_byte; lia|constructor]]. apply join_visible. now apply Forall_map.
  - constructor; [unfold visible_byte; lia|]. apply Forall_app. split; [|apply Forall_cons; [unfold visible_byte; lia|constructor]]. apply join_visible. apply Forall_map.
    eapply Forall_impl; [|exact H]. cbv beta. intros a V. apply Forall_app. split; [apply string_visible|]. constructor; [unfold visible_byte; lia|exact V].
Qed.
