(** Session descriptions: numbers, words and the lines of canonical form; no panic without overflow checks; streams. *)
From Coq Require Import String NArith ZArith List Bool Lia ZifyBool ZifyNat ZifyN.
From Verif.Model Require Import Bytes Text Http Sdp.
From Verif.Spec Require Import CmdSpec HttpSpec SdpSpec.
From Verif.Proofs Require Import BytesFacts TextProofs CmdProofs HttpExact HttpResponse SdpLines.
Import ListNotations.
Local Open Scope N_scope.

Ltac level := repeat (progress (rewrite <- ?app_assoc; cbn [app])); reflexivity.

(** ** Numbers *)
Lemma digits_grow : forall d acc v, digits_val 10 d acc = Some v -> acc <= v.
Proof.
  induction d as [|b d IH]; intros acc v H; cbn [digits_val] in H; [inversion H; lia|].
  destruct (digit_val 10 b); [|discriminate]. apply IH in H. lia.
Qed.
Lemma digit_range : forall b x, digit_val 10 b = Some x -> (48 <=? b) && (b <=? 57) = true /\ x = b - 48.
Proof.
  intros b x. unfold digit_val. destruct ((48 <=? b) && (b <=? 57)) eqn:E.
  - destruct (N.ltb_spec (b - 48) 10); [|discriminate]. intros H1. inversion H1. now split.
  - destruct ((97 <=? b) && (b <=? 122)) eqn:E2.
    + destruct (N.ltb_spec (b - 87) 10); [lia|discriminate].
    + destruct ((65 <=? b) && (b <=? 90)) eqn:E3; [|discriminate]. destruct (N.ltb_spec (b - 55) 10); [lia|discriminate].
Qed.
Definition no_digit (s : bytes) : Prop := match s with [] => True | b :: _ => (48 <=? b) && (b <=? 57) = false end.
Lemma decimal_exact : forall ovf d acc cnt v s, digits_val 10 d acc = Some v -> v < 2 ^ 32 -> no_digit s ->
  decimal_loop ovf (d ++ s) acc cnt = ROk (v, (cnt + length d)%nat, s).
Proof.
  intros ovf d. induction d as [|b d IH]; intros acc cnt v s H Hv Hs; cbn [digits_val] in H.
  - inversion H; subst. cbn [app length]. rewrite Nat.add_0_r. destruct s as [|c s]; [reflexivity|].
    cbn [decimal_loop]. red in Hs. now rewrite Hs.
  - destruct (digit_val 10 b) as [x|] eqn:E; [|discriminate]. apply digit_range in E. destruct E as [E ->].
    cbn [app decimal_loop]. rewrite E. pose proof (digits_grow _ _ _ H) as G.
    destruct (N.leb_spec (2 ^ 32) (acc * 10 + (b - 48))); [lia|]. rewrite andb_false_r.
    rewrite N.mod_small by lia. rewrite (IH _ _ _ _ H Hv Hs). cbn [length]. do 3 f_equal. lia.
Qed.
Lemma digits_head : forall d v, digits_val 10 d 0 = Some v -> d <> [] -> Forall visible d.
Proof. intros d v H _. eapply Forall_impl; [|exact (digits_visible _ _ _ H)]. intros b [V _]. exact V. Qed.
Lemma visible_skip w s : Forall visible w -> w <> [] -> skip_white (w ++ s) = w ++ s.
Proof. intros F N. destruct (forall_head w s F N) as (b & r & -> & Hb). now apply skip_visible. Qed.
Lemma read_decimal_exact : forall ovf d v s, d <> [] -> digits_val 10 d 0 = Some v -> v < 2 ^ 32 -> no_digit s ->
  read_decimal ovf (d ++ s) = ROk (v, s).
Proof.
  intros ovf d v s Hd H Hv Hs. unfold read_decimal. rewrite visible_skip; [|eapply digits_head; eassumption|assumption].
  rewrite (decimal_exact _ _ _ _ _ _ H Hv Hs). cbn [Nat.add]. destruct d; [congruence|reflexivity].
Qed.
Lemma read_decimal_space : forall ovf d v s, d <> [] -> digits_val 10 d 0 = Some v -> v < 2 ^ 32 -> no_digit s ->
  read_decimal ovf (32 :: d ++ s) = ROk (v, s).
Proof.
  intros ovf d v s Hd H Hv Hs. unfold read_decimal. rewrite skip_space.
  2: { destruct (forall_head d s (digits_head _ _ H Hd) Hd) as (b & r & -> & Hb). now apply visible_white. }
  rewrite (decimal_exact _ _ _ _ _ _ H Hv Hs). cbn [Nat.add]. destruct d; [congruence|reflexivity].
Qed.
Lemma decimal_bound : forall ovf s acc cnt v k r, acc < 2 ^ 32 -> decimal_loop ovf s acc cnt = ROk (v, k, r) -> v < 2 ^ 32.
Proof.
  intros ovf s. induction s as [|b s IH]; intros acc cnt v k r Ha H; cbn [decimal_loop] in H; [inversion H; now subst|].
  destruct ((48 <=? b) && (b <=? 57)); [|inversion H; now subst].
  destruct (ovf && _); [discriminate|]. eapply IH; [|exact H]. apply N.mod_lt. discriminate.
Qed.

(** ** White space at the ends *)
Lemma visible_last : forall s b w, visible b -> In w white_chars -> starts_with (rev w) (rev (s ++ [b])) = false.
Proof.
  intros s b w Hb Hw. rewrite rev_app_distr. cbn [rev app].
  destruct (starts_with (rev w) (b :: rev s)) eqn:E; [|reflexivity]. exfalso.
  apply starts_with_iff in E as (r & E). unfold visible in Hb. unfold white_chars in Hw. cbn in Hw.
  repeat (destruct Hw as [<-|Hw]; [cbn in E; injection E; intros; subst; lia|]). destruct Hw.
Qed.
Lemma visible_start : forall s b w, visible b -> In w white_chars -> starts_with w (b :: s) = false.
Proof.
  intros s b w Hb Hw. pose proof (visible_white b s Hb) as V. unfold Http.white_first in V.
  destruct (starts_with w (b :: s)) eqn:E; [|reflexivity].
  assert (X : existsb (fun w => starts_with w (b :: s)) white_chars = true) by (apply existsb_exists; eauto). congruence.
Qed.
Lemma visible_first : forall s b, visible b -> trim_start (b :: s) = b :: s.
Proof. intros. apply strip_stop. now apply visible_white. Qed.
Lemma visible_trim_end : forall s b, visible b -> trim_end (s ++ [b]) = s ++ [b].
Proof.
  intros s b Hb. unfold trim_end. destruct (length (s ++ [b])) as [|f] eqn:L; [cbn; now rewrite rev_involutive|].
  cbn [strip_fuel]. destruct (find (fun w => starts_with w (rev (s ++ [b]))) (map (@rev N) white_chars)) as [w|] eqn:E; [|now rewrite rev_involutive].
  apply find_some in E as [E1 E2]. apply in_map_iff in E1 as (w0 & <- & Hw). rewrite visible_last in E2; [discriminate|assumption|assumption].
Qed.
Lemma visible_trim : forall b s, visible b -> Forall (fun x => visible x \/ x = 32) s -> (forall t x, s = t ++ [x] -> visible x) ->
  trim (b :: s) = b :: s.
Proof.
  intros b s Hb _ Hl. unfold trim. rewrite visible_first by assumption.
  destruct (list_eq_dec N.eq_dec s []) as [->|N].
  - exact (visible_trim_end [] b Hb).
  - destruct (exists_last N) as (t & x & ->). change (b :: t ++ [x]) with ((b :: t) ++ [x]). apply visible_trim_end. now apply (Hl t x).
Qed.
Lemma trim_ends : forall s, (exists b t, s = b :: t /\ visible b) -> (exists t x, s = t ++ [x] /\ visible x) -> trim s = s.
Proof.
  intros s (b & t & E & Hb) (t2 & x & E2 & Hx). unfold trim. rewrite E, visible_first by assumption. rewrite <- E, E2. now apply visible_trim_end.
Qed.
Lemma word_ends : forall w, Forall visible w -> w <> [] -> trim w = w.
Proof.
  intros w F N. apply trim_ends.
  - destruct w as [|b t]; [congruence|]. exists b, t. split; [reflexivity|]. now inversion F.
  - destruct (exists_last N) as (t & x & ->). exists t, x. split; [reflexivity|]. apply Forall_app in F as [_ F]. now inversion F.
Qed.

(** ** Words *)
Lemma until_white_length : forall s w r, read_until_white s = (w, r) -> s = w ++ r.
Proof.
  induction s as [|b s IH]; intros w r H; cbn [read_until_white] in H; [now inversion H|].
  destruct (Http.white_first (b :: s)); [now inversion H|].
  destruct (read_until_white s) as [w1 r1]. inversion H; subst. cbn [app]. now rewrite (IH w1 r eq_refl).
Qed.
Lemma word_progress : forall s w r, s <> [] -> read_word s = (w, r) -> (length r < length s)%nat.
Proof.
  intros s w r Hs H. unfold read_word in H. pose proof (until_white_length _ _ _ H) as E.
  destruct (Http.white_first s) eqn:W.
  - assert (L : (length (skip_white s) < length s)%nat).
    { unfold skip_white, trim_start. destruct s as [|b s]; [congruence|]. cbn [length strip_fuel].
      destruct (find (fun w => starts_with w (b :: s)) white_chars) as [x|] eqn:F.
      - apply find_some in F as [F1 F2]. pose proof (white_nonempty _ F1) as N. pose proof (strip_length white_chars white_nonempty (length s) (skipn (length x) (b :: s))) as L.
        rewrite skipn_length in L. cbn [length] in L. destruct x; [congruence|]. cbn [length] in *. lia.
      - exfalso. unfold Http.white_first in W. apply existsb_exists in W as (x & W1 & W2).
        pose proof (find_none _ _ F x W1) as W3. cbn beta in W3. congruence. }
    rewrite E, app_length in L. lia.
  - unfold skip_white, trim_start in *. rewrite (strip_stop _ _ W) in *. destruct s as [|b s]; [congruence|].
    cbn [read_until_white] in H. rewrite W in H. destruct (read_until_white s) as [w1 r1]. inversion H; subst.
    apply (f_equal (@length N)) in E. rewrite app_length in E. cbn [length] in *. lia.
Qed.
(** The bound on the number of words is never reached. *)
Lemma words_fuel : forall f1 f2 s, (length s <= f1)%nat -> (length s <= f2)%nat -> words f1 s = words f2 s.
Proof.
  induction f1 as [|f1 IH]; intros f2 s H1 H2.
  - destruct s; [|cbn [length] in H1; lia]. destruct f2; reflexivity.
  - destruct s as [|b s]; [destruct f2; reflexivity|]. destruct f2 as [|f2]; [cbn [length] in H2; lia|].
    cbn [words]. destruct (read_word (b :: s)) as [w r] eqn:E.
    apply word_progress in E; [|discriminate]. cbn [length] in *. f_equal. apply IH; lia.
Qed.
Lemma words_exact : forall fmts f s, s = List.concat (map (fun x => 32 :: x) fmts) -> (length s <= f)%nat -> Forall word fmts ->
  words f s = fmts.
Proof.
  induction fmts as [|w fmts IH]; intros f s -> Hf H; [destruct f; reflexivity|].
  cbn [map List.concat app] in *. destruct f as [|f]; [cbn [length] in Hf; lia|]. inversion H as [|? ? [W1 W2] H']; subst.
  cbn [words]. unfold read_word. rewrite skip_space.
  2: { destruct (forall_head w (List.concat (map (fun x => 32 :: x) fmts)) W1 W2) as (b & r & -> & Hb). now apply visible_white. }
  rewrite (visible_word w W1).
  2: { destruct fmts; [now right|now left]. }
  f_equal. apply IH; [reflexivity| |assumption]. cbn [length] in Hf. rewrite app_length in Hf. lia.
Qed.

(** ** Lines in canonical form *)
Definition ports (nb : option bytes) : bytes := match nb with Some d => 47 :: d | None => [] end.
Definition media_text (t p : bytes) (nb : option bytes) (proto : bytes) (fmts : list bytes) : bytes :=
  lit "m="%string ++ t ++ [32] ++ p ++ ports nb ++ [32] ++ proto ++ List.concat (map (fun x => 32 :: x) fmts).
Definition nb_value (nb : option bytes) (n : option N) : Prop :=
  match nb, n with
  | None, None => True
  | Some d, Some v => d <> [] /\ digits_val 10 d 0 = Some v /\ v < 2 ^ 16
  | _, _ => False
  end.

Lemma letter_exact lossy c line s : visible c -> lossy line = c :: 61 :: s -> after_letter lossy c line = Some s.
Proof.
  intros Hc E. unfold after_letter. rewrite E, (skip_visible c _ Hc). cbn [match_char]. rewrite N.eqb_refl.
  rewrite skip_visible by (split; lia). cbn [match_char]. reflexivity.
Qed.
Lemma concat_last fmts x : Forall word fmts -> visible x -> forall t, exists t2 y, (t ++ [x]) ++ List.concat (map (fun x => 32 :: x) fmts) = t2 ++ [y] /\ visible y.
Proof.
  revert x. induction fmts as [|w fmts IH]; intros x H Hx t; cbn [map List.concat].
  - exists t, x. rewrite app_nil_r. now split.
  - inversion H as [|? ? [W1 W2] H']; subst. destruct (exists_last W2) as (u & z & ->).
    apply Forall_app in W1 as [_ W1]. inversion W1; subst.
    destruct (IH z H' H2 ((t ++ [x]) ++ 32 :: u)) as (t2 & y & E & Hy). exists t2, y. split; [|assumption]. rewrite <- E.
    cbn [app]. now rewrite <- !app_assoc.
Qed.
Lemma media_exact ovf lossy lc line t p v nb n proto fmts :
  word t -> p <> [] -> digits_val 10 p 0 = Some v -> v < 2 ^ 16 -> nb_value nb n -> word proto -> hd 0 proto <> 47 -> Forall word fmts ->
  lossy line = media_text t p nb proto fmts ->
  media_line ovf lossy lc line =
  ROk {| md_type := mtype_of lc t; md_port := v; md_nb := n; md_protocol := proto; md_formats := fmts; md_attrs := [] |}.
Proof.
  intros [T1 T2] P1 P2 P3 HN [R1 R2] R3 F E. unfold media_line.
  rewrite (letter_exact lossy 109 line _ ltac:(split; lia) E).
  assert (B16 : 2 ^ 16 < 2 ^ 32) by reflexivity.
  cbn [app]. set (fs := List.concat (map (fun x => 32 :: x) fmts)).
  set (tail := 32 :: p ++ ports nb ++ 32 :: proto ++ fs).
  rewrite (visible_skip t tail T1 T2). unfold media_parse.
  assert (TR : trim (t ++ tail) = t ++ tail).
  { apply trim_ends.
    - destruct (forall_head t tail T1 T2) as (b & r & -> & Hb). now exists b, r.
    - destruct (exists_last R2) as (u & z & Eu). assert (Hz : visible z) by (subst proto; apply Forall_app in R1 as [_ R1]; now inversion R1).
      destruct (concat_last fmts z F Hz (t ++ 32 :: p ++ ports nb ++ 32 :: u)) as (t2 & y & E2 & Hy). exists t2, y. split; [|assumption].
      rewrite <- E2. unfold tail, fs. rewrite Eu. level. }
  rewrite TR. unfold read_word at 1. rewrite (visible_skip t tail T1 T2), (visible_word t T1) by now left.
  assert (RP : read_word (32 :: proto ++ fs) = (proto, fs)).
  { unfold read_word. rewrite skip_space.
    2: { destruct (forall_head proto fs R1 R2) as (b & r & -> & Hb). now apply visible_white. }
    rewrite (visible_word proto R1); [auto|]. unfold fs. destruct fmts; [now right|now left]. }
  assert (RP2 : read_word (proto ++ fs) = (proto, fs)).
  { unfold read_word. rewrite (visible_skip proto fs R1 R2). rewrite (visible_word proto R1); [auto|]. unfold fs. destruct fmts; [now right|now left]. }
  assert (W : words (length fs) fs = fmts) by (apply (words_exact fmts (length fs) fs eq_refl); [lia|assumption]).
  unfold tail. destruct nb as [d|], n as [nv|]; cbn [nb_value] in HN; try contradiction; cbn [ports app].
  - destruct HN as (D1 & D2 & D3).
    rewrite (read_decimal_space ovf p v (47 :: d ++ 32 :: proto ++ fs) P1 P2 ltac:(lia)); [|reflexivity].
    rewrite skip_visible by (split; lia). rewrite N.eqb_refl.
    rewrite (read_decimal_exact ovf d nv (32 :: proto ++ fs) D1 D2 ltac:(lia)) by reflexivity.
    rewrite RP. rewrite W, !N.mod_small by assumption. reflexivity.
  - rewrite (read_decimal_space ovf p v (32 :: proto ++ fs) P1 P2 ltac:(lia)); [|reflexivity].
    rewrite skip_space.
    2: { destruct (forall_head proto fs R1 R2) as (b & r & -> & Hb). now apply visible_white. }
    destruct proto as [|c proto]; [congruence|]. cbn [hd] in R3. cbn [app] in *.
    destruct (N.eqb_spec c 47); [contradiction|]. rewrite RP2. rewrite W, N.mod_small by assumption. reflexivity.
Qed.

Lemma attribute_exact lossy line name value : visible (hd 0 name) -> ~ In 58 name ->
  lossy line = lit "a="%string ++ name ++ [58] ++ value ->
  attribute_line lossy line = ROk {| at_name := trim name; at_value := Some (trim value) |}.
Proof.
  intros Hv Hn E. unfold attribute_line. rewrite (letter_exact lossy 97 line _ ltac:(split; lia) E).
  destruct name as [|b name]; [destruct Hv; cbn in *; lia|]. cbn [hd] in Hv. cbn [app]. rewrite (skip_visible b _ Hv).
  unfold attribute_parse. change (b :: name ++ 58 :: value) with ((b :: name) ++ 58 :: value). rewrite (find_char_first 58 _ value Hn).
  rewrite firstn_app, Nat.sub_diag, firstn_all, app_nil_r.
  rewrite skipn_app, skipn_all2 by lia. replace (S (length (b :: name)) - length (b :: name))%nat with 1%nat by lia. reflexivity.
Qed.
Lemma attribute_plain lossy line name : visible (hd 0 name) -> ~ In 58 name ->
  lossy line = lit "a="%string ++ name -> attribute_line lossy line = ROk {| at_name := trim name; at_value := None |}.
Proof.
  intros Hv Hn E. unfold attribute_line. rewrite (letter_exact lossy 97 line _ ltac:(split; lia) E).
  destruct name as [|b name]; [destruct Hv; cbn in *; lia|]. cbn [hd] in Hv. rewrite (skip_visible b _ Hv).
  unfold attribute_parse. assert (X : forall l, ~ In 58 l -> find_char 58 l = None).
  { induction l as [|c l IH]; intros H; [reflexivity|]. cbn [find_char]. destruct (N.eqb_spec c 58) as [->|]; [exfalso; apply H; now left|].
    rewrite IH; [reflexivity|]. intros I. apply H. now right. }
  now rewrite (X _ Hn).
Qed.
Lemma rtpmap_exact ovf pt v enc clock w params :
  pt <> [] -> digits_val 10 pt 0 = Some v -> v < 2 ^ 32 -> word enc -> ~ In 47 enc ->
  clock <> [] -> digits_val 10 clock 0 = Some w -> w < 2 ^ 32 -> (params = [] \/ exists r, params = 47 :: r /\ word r) ->
  rtpmap_parse ovf (pt ++ [32] ++ enc ++ [47] ++ clock ++ params) = ROk enc.
Proof.
  intros P1 P2 P3 [E1 E2] E3 C1 C2 C3 HP. unfold rtpmap_parse. cbn [app].
  assert (PV : Forall visible params).
  { destruct HP as [->|(r & -> & R1 & R2)]; constructor; [split; lia|assumption]. }
  pose proof (digits_head _ _ P2 P1) as PF. pose proof (digits_head _ _ C2 C1) as CF.
  rewrite trim_ends.
  2: { destruct (forall_head pt (32 :: enc ++ 47 :: clock ++ params) PF P1) as (b & r & -> & Hb). now exists b, r. }
  2: { destruct (list_eq_dec N.eq_dec params []) as [->|N].
       - destruct (exists_last C1) as (u & z & ->). exists (pt ++ 32 :: enc ++ 47 :: u), z. split.
         + rewrite app_nil_r. level.
         + apply Forall_app in CF as [_ CF]. now inversion CF.
       - destruct (exists_last N) as (u & z & ->). exists (pt ++ 32 :: enc ++ 47 :: clock ++ u), z. split.
         + level.
         + apply Forall_app in PV as [_ PV]. now inversion PV. }
  rewrite (read_decimal_exact ovf pt v (32 :: enc ++ 47 :: clock ++ params) P1 P2 P3) by reflexivity.
  change (32 :: enc ++ 47 :: clock ++ params) with ((32 :: enc) ++ 47 :: clock ++ params).
  rewrite (read_until_stop 47).
  2: { intros [H|H]; [discriminate|contradiction]. }
  cbn [match_char]. rewrite N.eqb_refl.
  rewrite (read_decimal_exact ovf clock w params C1 C2 C3) by (destruct HP as [->|(r & -> & _)]; [exact I|reflexivity]).
  assert (TE : trim (32 :: enc) = enc).
  { apply trim_unique. exists [32], []. rewrite app_nil_r. split; [reflexivity|]. split.
    - exists [[32]]. split; [reflexivity|]. constructor; [|constructor]. vm_compute. tauto.
    - split; [exists []; split; [reflexivity|constructor]|].
      intros x Hx. split.
      + destruct enc as [|b enc]; [congruence|]. apply visible_start; [now inversion E1|assumption].
      + unfold ends_with. destruct (exists_last E2) as (u & z & ->). apply Forall_app in E1 as [_ E1]. apply visible_last; [now inversion E1|assumption]. }
  rewrite TE. destruct HP as [->|(r & -> & _)]; [reflexivity|]. rewrite skip_visible by (split; lia). reflexivity.
Qed.

(** ** No panic without overflow checks *)
Section Release.
  Variables lossy lc uc : bytes -> bytes.

  Lemma decimal_safe s : forall acc cnt, decimal_loop false s acc cnt <> RPanic.
  Proof.
    induction s as [|b s IH]; intros acc cnt; cbn [decimal_loop]; [discriminate|].
    destruct ((48 <=? b) && (b <=? 57)); [|discriminate]. cbn [andb]. apply IH.
  Qed.
  Lemma read_decimal_safe s : read_decimal false s <> RPanic.
  Proof.
    unfold read_decimal. pose proof (decimal_safe (skip_white s) 0 0) as D.
    destruct (decimal_loop false (skip_white s) 0 0) as [[[v c] r]| |]; try discriminate; [destruct (Nat.eqb c 0); discriminate|congruence].
  Qed.
  Lemma version_safe line : version_line false lossy line <> RPanic.
  Proof.
    unfold version_line. destruct (after_letter lossy 118 line) as [r|]; [|discriminate].
    pose proof (read_decimal_safe r). destruct (read_decimal false r) as [[v ?]| |]; try discriminate; congruence.
  Qed.
  Lemma media_safe line : media_line false lossy lc line <> RPanic.
  Proof.
    unfold media_line. destruct (after_letter lossy 109 line) as [r|]; [|discriminate]. unfold media_parse.
    destruct (read_word _) as [mt r1]. pose proof (read_decimal_safe r1). destruct (read_decimal false r1) as [[v r2]| |]; try discriminate; [|congruence].
    destruct (skip_white r2) as [|c r3]; [discriminate|]. destruct (c =? 47).
    - pose proof (read_decimal_safe r3). destruct (read_decimal false r3) as [[? ?]| |]; try discriminate; [|congruence].
      destruct (read_word _); discriminate.
    - destruct (read_word _); discriminate.
  Qed.
  Lemma attribute_safe line : attribute_line lossy line <> RPanic.
  Proof. unfold attribute_line. destruct (after_letter lossy 97 line); discriminate. Qed.
  Lemma add_ne a l : l <> [] -> exists l', add_attribute a l = Some l' /\ l' <> [].
  Proof.
    intros H. destruct (exists_last H) as (u & m & ->). rewrite add_attribute_snoc. eexists. split; [reflexivity|]. now destruct u.
  Qed.
  Definition kept (s : bytes) (d : sdp) (r : result (sdp * bytes * N)) : Prop :=
    match r with
    | RPanic => False
    | RErr => True
    | ROk (d', rest, _) => (length rest <= length s)%nat /\ (sd_media d <> [] -> sd_media d' <> [])
    end.
  Lemma run_safe : forall f cap l s d, (length s < f)%nat -> (l = LpMedia -> sd_media d <> []) -> kept s d (run false lossy lc f cap l s d).
  Proof.
    induction f as [|f IH]; intros cap l s d Hf Hl; [lia|]. cbn [run].
    pose proof (next_cases cap s) as N. destruct (next_line cap s) as [line rest| |]; [|split; [lia|tauto]|exact I].
    destruct N as (_ & N2 & _).
    assert (K : forall l1 d1, (l1 = LpMedia -> sd_media d1 <> []) -> (sd_media d <> [] -> sd_media d1 <> []) -> kept s d (run false lossy lc f cap l1 rest d1)).
    { intros l1 d1 H1 H2. specialize (IH cap l1 rest d1 ltac:(lia) H1). destruct (run false lossy lc f cap l1 rest d1) as [[[d2 r2] n2]| |]; cbn in *; [|exact I|exact IH].
      destruct IH. split; [lia|tauto]. }
    assert (KN : forall l1 d1, (l1 = LpMedia -> sd_media d1 <> []) -> (sd_media d <> [] -> sd_media d1 <> []) -> kept s d
        match run false lossy lc f cap l1 rest d1 with
        | ROk (d1, rest1, n1) =>
            match run false lossy lc f cap l rest1 d1 with
            | ROk (d2, rest2, n2) => ROk (d2, rest2, N.max (1 + n1) n2)
            | e => e
            end
        | e => e
        end).
    { intros l1 d1 H1 H2. pose proof (IH cap l1 rest d1 ltac:(lia) H1) as A. destruct (run false lossy lc f cap l1 rest d1) as [[[d2 r2] n2]| |]; cbn in A; [|exact I|contradiction].
      destruct A as [A1 A2]. pose proof (IH cap l r2 d2 ltac:(lia) ltac:(intros E; apply A2, H2, Hl, E)) as B.
      destruct (run false lossy lc f cap l r2 d2) as [[[d3 r3] n3]| |]; cbn in *; [|exact I|contradiction]. destruct B. split; [lia|tauto]. }
    assert (P : forall c, kept s d
      (if c =? 118 then
              match version_line false lossy line with
              | ROk v => run false lossy lc f cap l rest {| sd_version := v; sd_media := sd_media d |}
              | RErr => RErr
              | RPanic => RPanic
              end
              else if c =? 116 then
                match run false lossy lc f cap LpTime rest d with
                | ROk (d1, rest1, n1) =>
                    match run false lossy lc f cap l rest1 d1 with
                    | ROk (d2, rest2, n2) => ROk (d2, rest2, N.max (1 + n1) n2)
                    | e => e
                    end
                | e => e
                end
              else if c =? 109 then
                match media_line false lossy lc line with
                | ROk m =>
                  match run false lossy lc f cap LpMedia rest {| sd_version := sd_version d; sd_media := sd_media d ++ [m] |} with
                  | ROk (d1, rest1, n1) =>
                      match run false lossy lc f cap l rest1 d1 with
                      | ROk (d2, rest2, n2) => ROk (d2, rest2, N.max (1 + n1) n2)
                      | e => e
                      end
                  | e => e
                  end
                | RErr => RErr
                | RPanic => RPanic
                end
              else run false lossy lc f cap l rest d)).
    { intros c. destruct (c =? 118).
      { pose proof (version_safe line). destruct (version_line false lossy line); [|exact I|congruence]. apply K; cbn [sd_media]; tauto. }
      destruct (c =? 116). { apply KN; [discriminate|tauto]. }
      destruct (c =? 109).
      { pose proof (media_safe line). destruct (media_line false lossy lc line) as [m| |]; [|exact I|congruence].
        apply KN; intros _; cbn [sd_media]; now destruct (sd_media d). }
      apply K; tauto. }
    destruct (first_char line) as [c|]; [|apply K; tauto].
    destruct l; [apply P| |].
    - destruct (c =? 114); [apply K; tauto|apply P].
    - destruct ((c =? 105) || (c =? 99) || (c =? 98) || (c =? 107)); [apply K; tauto|].
      destruct (c =? 97); [|apply P].
      pose proof (attribute_safe line). destruct (attribute_line lossy line) as [a| |]; [|exact I|congruence].
      destruct (add_ne a (sd_media d) (Hl eq_refl)) as (l' & -> & H'). apply K; cbn [sd_media]; tauto.
  Qed.
  Lemma parse_safe s : sdp_parse false lossy lc s <> RPanic.
  Proof.
    unfold sdp_parse, sdp_run. pose proof (run_safe (S (length s)) LINE_LIMIT LpTop s sdp_new ltac:(lia) ltac:(discriminate)) as K.
    destruct (run _ _ _ _ _ _ _ _) as [[[? ?] ?]| |]; try discriminate. destruct K.
  Qed.
  Lemma rtpmap_safe s : rtpmap_parse false s <> RPanic.
  Proof.
    unfold rtpmap_parse. pose proof (read_decimal_safe (trim s)). destruct (read_decimal false (trim s)) as [[? r]| |]; try discriminate; [|congruence].
    destruct (read_until 47 r) as [enc r1]. destruct (match_char 47 r1) as [r2|]; [|discriminate].
    pose proof (read_decimal_safe r2). destruct (read_decimal false r2) as [[? r3]| |]; try discriminate; [|congruence].
    destruct (skip_white r3); [discriminate|]. destruct (match_char 47 _); discriminate.
  Qed.
  Lemma rtpmap_of_safe a : rtpmap_of false lc a <> RPanic.
  Proof. unfold rtpmap_of. destruct (beq _ _); [|discriminate]. destruct (at_value a); [apply rtpmap_safe|discriminate]. Qed.

  Lemma encodings_in : forall l, exists es, encodings false lc uc l = ROk es /\
    forall x, In x es <-> exists a e, In a l /\ rtpmap_of false lc a = ROk e /\ x = uc e.
  Proof.
    induction l as [|a l (es & IH1 & IH2)]; cbn [encodings].
    - exists []. split; [reflexivity|]. intros x. split; [intros []|intros (a & e & [] & _)].
    - rewrite IH1. pose proof (rtpmap_of_safe a) as S. destruct (rtpmap_of false lc a) as [e| |] eqn:E; [| |congruence].
      + exists (uc e :: es). split; [reflexivity|]. intros x. cbn [In]. rewrite IH2. split.
        * intros [<-|(a' & e' & H1 & H2)]; [exists a, e; auto|exists a', e'; tauto].
        * intros (a' & e' & [<-|H1] & H2 & H3); [left; congruence|right; exists a', e'; auto].
      + exists es. split; [reflexivity|]. intros x. rewrite IH2. split.
        * intros (a' & e' & H1 & H2). exists a', e'. cbn [In]. tauto.
        * intros (a' & e' & [<-|H1] & H2 & H3); [congruence|exists a', e'; auto].
  Qed.

  Lemma supported_iff s : exists b, is_supported_rtsp false lossy lc uc s = ROk b /\
    (b = true <-> exists d m a e, sdp_parse false lossy lc s = ROk d /\ In m (sd_media d) /\ md_type m = MVideo /\ In a (md_attrs m)
       /\ rtpmap_of false lc a = ROk e /\ In (uc e) supported_codecs).
  Proof.
    unfold is_supported_rtsp. change codecs with supported_codecs. pose proof (parse_safe s) as PS. destruct (sdp_parse false lossy lc s) as [d| |]; [| |congruence].
    2: { exists false. split; [reflexivity|]. split; [discriminate|]. intros (d & ? & ? & ? & ? & _). discriminate. }
    destruct (encodings_in (flat_map md_attrs (filter is_video (sd_media d)))) as (es & -> & H).
    eexists. split; [reflexivity|]. rewrite existsb_exists. split.
    - intros (c & C1 & C2). apply existsb_exists in C2 as (x & X1 & X2). apply beq_spec in X2. subst x.
      apply H in X1 as (a & e & A1 & A2 & ->). apply in_flat_map in A1 as (m & M1 & M2). apply filter_In in M1 as [M1 M3].
      exists d, m, a, e. repeat split; try assumption. unfold is_video in M3. now destruct (md_type m).
    - intros (d' & m & a & e & E & M1 & M2 & A & R & C). injection E as <-. exists (uc e). split; [assumption|].
      apply existsb_exists. exists (uc e). split; [|now apply beq_spec]. apply H. exists a, e. split; [|tauto].
      apply in_flat_map. exists m. split; [|assumption]. apply filter_In. split; [assumption|]. unfold is_video. now rewrite M2.
  Qed.
End Release.
