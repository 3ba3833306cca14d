(** Reading a saved configuration. *)
From Coq Require Import String NArith ZArith List Bool Lia ZifyBool ZifyNat ZifyN.
From Verif.Model Require Import Bytes Service Alist SvcTable Mac TableJson Config.
From Verif.Spec Require Import TableSpec DocSpec.
From Verif.Proofs Require Import BytesFacts TableProofs TableJsonPf.
Import ListNotations.
Local Open Scope N_scope.
Local Open Scope list_scope.

Lemma field_spec k o v : field_of (lit k) o = Some v <-> field k o v.
Proof.
  unfold field. induction o as [|[x w] o IH]; cbn [field_of].
  - split; [discriminate|]. intros (a & b & E & _). destruct a; discriminate.
  - destruct (beq (lit k) x) eqn:B.
    + apply beq_spec in B. subst x. split.
      * intros E. injection E as <-. exists [], o. split; [reflexivity|intros []].
      * intros (a & b & E & Na). destruct a as [|y a]; [now injection E as <- <-|].
        injection E as <- E. exfalso. apply Na. now left.
    + rewrite IH. split.
      * intros (a & b & -> & Na). exists ((x, w) :: a), b. split; [reflexivity|]. intros [E|E]; [|contradiction].
        cbn [fst] in E. subst x. now rewrite beq_refl in B.
      * intros (a & b & E & Na). destruct a as [|y a].
        -- injection E as E1 E2 E3. subst x. now rewrite beq_refl in B.
        -- injection E as <- ->. exists a, b. split; [reflexivity|]. intros H. apply Na. now right.
Qed.
Lemma field_fun k o v w : field k o v -> field k o w -> v = w.
Proof. rewrite <- !field_spec. congruence. Qed.
Lemma field_none k o : field_of (lit k) o = None <-> ~ exists v, field k o v.
Proof.
  split.
  - intros E [v H]. apply field_spec in H. congruence.
  - intros H. destruct (field_of (lit k) o) as [v|] eqn:E; [|reflexivity]. exfalso. apply H. exists v. now apply field_spec.
Qed.

Lemma u16_spec v n : as_u16 v = Some n <-> is_u16 v n.
Proof.
  unfold as_u16, is_u16. split.
  - destruct v; try discriminate. destruct ((0 <=? z)%Z && (z <? 65536)%Z) eqn:Q; [|discriminate]. intros E. injection E as <-.
    split; [f_equal; lia|lia].
  - intros [-> H]. replace ((0 <=? Z.of_N n)%Z && (Z.of_N n <? 65536)%Z) with true by lia. now rewrite N2Z.id.
Qed.
Lemma time_spec v n : as_i64 v = Some n <-> is_time v n.
Proof.
  unfold as_i64, is_time. split.
  - destruct v; try discriminate. destruct ((- 2 ^ 63 <=? z)%Z && (z <? 2 ^ 63)%Z) eqn:Q; [|discriminate]. intros E. injection E as <-.
    split; [reflexivity|lia].
  - intros [-> H]. now replace ((- 2 ^ 63 <=? n)%Z && (n <? 2 ^ 63)%Z) with true by lia.
Qed.
Lemma flag_spec v b : as_bool v = Some b <-> is_flag v b.
Proof. unfold as_bool, is_flag. destruct v; split; try discriminate; congruence. Qed.
Lemma text_spec v s : as_str v = Some s <-> v = JStr s.
Proof. unfold as_str. destruct v; split; try discriminate; congruence. Qed.

Lemma optional_spec {A} k (f : json -> option A) (is : json -> A -> Prop) d o x :
  (forall v y, f v = Some y <-> is v y) -> (or_else (bind (field_of (lit k) o) f) d = x <-> optional k is d o x).
Proof.
  intros S. unfold optional, or_else, bind. destruct (field_of (lit k) o) as [v|] eqn:E.
  - apply field_spec in E. destruct (f v) as [y|] eqn:F.
    + apply S in F. split.
      * intros <-. left. eauto.
      * intros [(w & W & X)|[H _]]; [|exfalso; now apply (H v y)].
        rewrite (field_fun _ _ _ _ W E) in X. apply S in X. apply S in F. congruence.
    + split.
      * intros <-. right. split; [|reflexivity]. intros w y W I. rewrite (field_fun _ _ _ _ W E) in I. apply S in I. congruence.
      * intros [(w & W & X)|[_ ->]]; [|reflexivity]. rewrite (field_fun _ _ _ _ W E) in X. apply S in X. congruence.
  - split.
    + intros <-. right. split; [|reflexivity]. intros w y W _. apply field_none in E. apply E. eauto.
    + intros [(w & W & X)|[_ ->]]; [|reflexivity]. exfalso. apply field_none in E. apply E. eauto.
Qed.
Lemma needed_spec {A} k (f : json -> option A) o x : bind (field_of (lit k) o) f = Some x <-> exists v, field k o v /\ f v = Some x.
Proof.
  unfold bind. destruct (field_of (lit k) o) as [v|] eqn:E.
  - apply field_spec in E. split; [eauto|]. intros (w & W & X). now rewrite <- (field_fun _ _ _ _ W E).
  - split; [discriminate|]. intros (w & W & _). exfalso. apply field_none in E. apply E. eauto.
Qed.

Section Doc.
  Variable aparse : bytes -> option saddr.
  Variable uparse : bytes -> option N.

  Lemma says_spec ty m a p s : service_of ty (mac_parse m) (aparse a) p = Some s <-> says aparse ty m a p s.
  Proof.
    split.
    - unfold service_of. cbv zeta. intros E.
      assert (P : or_else (match p with [] => None | _ => Some p end) [] = p) by now destruct p.
      repeat match type of E with (if ?x =? ?y then _ else _) = _ => destruct (N.eqb_spec x y) as [->|?] end;
        try discriminate; try (injection E as <-; constructor);
        destruct (mac_parse m) as [m'|] eqn:M, (aparse a) as [a'|] eqn:A; try discriminate; injection E as <-; rewrite ?P; now constructor.
    - intros H. destruct H as [m a p|m a p m' a' M A|m a p m' a' M A|m a p m' a' M A|m a p m' a' M A|m a p m' a' M A|m a p m' a' M A|m a p m' a' M A|m a p m' a' M A];
        [reflexivity|..]; rewrite M, A; try reflexivity; now destruct p.
  Qed.

  Lemma entry_spec now j e : entry_from_json aparse now j = ROk e <-> saved aparse now j e.
  Proof.
    unfold entry_from_json, saved. split.
    - destruct j as [| | | | |o]; try discriminate. intros E.
      destruct (bind (field_of (lit "svc_type") o) as_u16) as [ty|] eqn:E1; [|discriminate].
      destruct (bind (field_of (lit "mac") o) as_str) as [m|] eqn:E2; [|discriminate].
      destruct (bind (field_of (lit "address") o) as_str) as [a|] eqn:E3; [|discriminate].
      destruct (bind (field_of (lit "path") o) as_str) as [p|] eqn:E4; [|discriminate].
      destruct (service_of ty (mac_parse m) (aparse a) p) as [s|] eqn:E5; [|discriminate].
      apply needed_spec in E1, E2, E3, E4. destruct E1 as (v1 & F1 & U1), E2 as (v2 & F2 & U2), E3 as (v3 & F3 & U3), E4 as (v4 & F4 & U4).
      apply text_spec in U2, U3, U4. subst v2 v3 v4. apply u16_spec in U1. apply says_spec in E5.
      injection E as <-. cbn [n_id n_svc n_static n_enabled n_seen n_active].
      exists o, v1, ty, m, a, p. repeat split; auto; try apply U1.
      + now apply (optional_spec "id" as_u16 is_u16 0 o _ u16_spec).
      + now apply (optional_spec "static_svc" as_bool is_flag false o _ flag_spec).
      + now apply (optional_spec "last_seen" as_i64 is_time now o _ time_spec).
      + now apply (optional_spec "active" as_bool is_flag true o _ flag_spec).
    - intros (o & v & ty & m & a & p & -> & F1 & U1 & F2 & F3 & F4 & S & I1 & I2 & I3 & I4 & I5).
      apply field_spec in F1, F2, F3, F4. apply u16_spec in U1. apply says_spec in S.
      apply (optional_spec "id" as_u16 is_u16 0 o _ u16_spec) in I1.
      apply (optional_spec "static_svc" as_bool is_flag false o _ flag_spec) in I2.
      apply (optional_spec "last_seen" as_i64 is_time now o _ time_spec) in I4.
      apply (optional_spec "active" as_bool is_flag true o _ flag_spec) in I5.
      rewrite F1, F2, F3, F4. cbn [bind as_str]. rewrite U1, S, I1, I2, I4, I5. destruct e; cbn in *; subst; reflexivity.
  Qed.
  Lemma entry_no_panic now j : entry_from_json aparse now j <> RPanic.
  Proof.
    unfold entry_from_json. destruct j; try discriminate.
    repeat match goal with |- match ?x with _ => _ end <> _ => destruct x; try discriminate end.
  Qed.
  Lemma entry_refused now j : entry_from_json aparse now j = RErr <-> ~ readable aparse now j.
  Proof.
    unfold readable. destruct (entry_from_json aparse now j) as [e| |] eqn:E.
    - split; [discriminate|]. intros H. exfalso. apply H. exists e. now apply entry_spec.
    - split; [|reflexivity]. intros _ [e H]. apply entry_spec in H. congruence.
    - now apply entry_no_panic in E.
  Qed.
  Lemma saved_fun now j e e' : saved aparse now j e -> saved aparse now j e' -> e = e'.
  Proof. rewrite <- !entry_spec. congruence. Qed.

  (** *** Places *)
  Lemma probe_free m start : forall f j id, (N.of_nat f + j = 65536) -> start < 65536 ->
    probe f m start ((start + j) mod 65536) = Some id ->
    exists k, j <= k /\ k < 65536 /\ id = (start + k) mod 65536 /\ alookup id m = None /\
      forall k', j <= k' -> k' < k -> alookup ((start + k') mod 65536) m <> None.
  Proof using.
    induction f as [|f IH]; intros j id Hf Hs H; cbn [probe] in H; [discriminate|].
    destruct (alookup ((start + j) mod 65536) m) as [x|] eqn:L.
    - cbv zeta in H. assert (En : next16 ((start + j) mod 65536) = (start + (j + 1)) mod 65536) by (unfold next16; change (2 ^ 16) with 65536; lia).
      rewrite En in H. destruct (N.eqb_spec ((start + (j + 1)) mod 65536) start); [discriminate|].
      apply IH in H; [|lia|lia]. destruct H as (k & K1 & K2 & K3 & K4 & K5). exists k. repeat split; auto; [lia|].
      intros k' A B. destruct (N.eq_dec k' j) as [->|]; [congruence|]. apply K5; lia.
    - injection H as <-. exists j. repeat split; auto; try lia.
  Qed.
  Lemma look_keys id (m : list (N * entry)) : alookup id m <> None <-> In id (map fst m).
  Proof using. pose proof (alookup_none id m). destruct (in_dec N.eq_dec id (map fst m)); [split; auto; intros _; tauto|]. tauto. Qed.
  Lemma add_element_next t e id t' : n_id e < 65536 -> add_element t e = ROk (id, t') -> next_free (map fst (t_map t)) (n_id e) id.
  Proof using.
    intros Hid. unfold add_element. generalize (N2Nat.id (2 ^ 16)). generalize (N.to_nat (2 ^ 16)). intros f Hf H. unfold add_element_fuel in H.
    destruct (probe f (t_map t) (n_id e) (n_id e)) as [i|] eqn:P; [|discriminate]. injection H as <- _.
    assert (Q : (n_id e + 0) mod 65536 = n_id e) by lia. rewrite <- Q in P at 2. change (2 ^ 16) with 65536 in Hf.
    destruct (probe_free (t_map t) (n_id e) f 0 i ltac:(lia) Hid P) as (k & _ & K2 & K3 & K4 & K5).
    exists k. repeat split; auto.
    - rewrite <- look_keys. tauto.
    - intros k' B. rewrite <- look_keys. apply K5; lia.
  Qed.

  Lemma ainsert_new {V} k v (l : list (N * V)) : alookup k l = None -> ainsert k v l = l ++ [(k, v)].
  Proof using.
    induction l as [|[a b] l IH]; cbn [ainsert alookup app]; [reflexivity|]. destruct (N.eqb_spec k a); [discriminate|].
    intros H. now rewrite (IH H).
  Qed.

  (** [n] entries with distinct IDs *)
  Definition holding (m : list (N * entry)) (n : N) : Prop := NoDup (map fst m) /\ (forall id, In id (map fst m) -> id < 65536) /\ nlen m = n.
  Lemma below_full (K : N) (m : list N) : NoDup m -> (forall id, In id m -> id < K) ->
    nlen m <= K /\ (nlen m = K -> forall id, id < K -> In id m).
  Proof using.
    clear aparse uparse.
    intros D B.
    assert (I : incl m (map N.of_nat (seq 0 (N.to_nat K)))).
    { intros x Hx. specialize (B x Hx). apply in_map_iff. exists (N.to_nat x). split; [lia|]. apply in_seq. lia. }
    unfold nlen. split.
    - apply (NoDup_incl_length D) in I. rewrite map_length, seq_length in I. lia.
    - intros L id Hid. apply (NoDup_length_incl D) in I.
      + apply I. apply in_map_iff. exists (N.to_nat id). split; [lia|]. apply in_seq. lia.
      + rewrite map_length, seq_length. lia.
  Qed.
  Lemma holding_full m n : holding m n -> n <= 65536 /\ (n = 65536 -> forall id, id < 65536 -> In id (map fst m)).
  Proof using.
    clear aparse uparse.
    intros (D & B & L). pose proof (below_full 65536 _ D B) as X. assert (E : nlen (map fst m) = n) by (unfold nlen in *; now rewrite map_length).
    rewrite E in X. exact X.
  Qed.
  Lemma add_fuel_err f t e : add_element_fuel f t e <> RErr.
  Proof using. unfold add_element_fuel. destruct (probe f _ _ _); discriminate. Qed.
  Lemma add_fuel_panic f t e : add_element_fuel f t e = RPanic -> probe f (t_map t) (n_id e) (n_id e) = None.
  Proof using. unfold add_element_fuel. destruct (probe f _ _ _); [discriminate|reflexivity]. Qed.
  Lemma add_element_err t e : add_element t e <> RErr.
  Proof using. exact (add_fuel_err (N.to_nat (2 ^ 16)) t e). Qed.
  Lemma add_element_panic t e : add_element t e = RPanic -> probe (N.to_nat (2 ^ 16)) (t_map t) (n_id e) (n_id e) = None.
  Proof using. exact (add_fuel_panic (N.to_nat (2 ^ 16)) t e). Qed.
  Lemma add_element_full t e : holding (t_map t) 65536 -> n_id e < 65536 -> add_element t e = RPanic.
  Proof using.
    clear aparse uparse.
    intros H Hid. destruct (add_element t e) as [[id t']| |] eqn:E.
    - exfalso. destruct (add_element_shape t e id t' Hid E) as (L & B & _). apply alookup_none in L. apply L.
      apply (proj2 (holding_full _ _ H) eq_refl). exact B.
    - exfalso. exact (add_element_err t e E).
    - reflexivity.
  Qed.
  Lemma add_element_room t e n : holding (t_map t) n -> n < 65536 -> n_id e < 65536 ->
    exists id, next_free (map fst (t_map t)) (n_id e) id /\ add_element t e = ROk (id, extended t id e) /\
      t_map (extended t id e) = t_map t ++ [(id, under id e)] /\ holding (t_map (extended t id e)) (n + 1).
  Proof using.
    clear aparse uparse.
    intros H Hn Hid. destruct (add_element t e) as [[id t']| |] eqn:E.
    - destruct (add_element_shape t e id t' Hid E) as (L & B & ->). exists id.
      split; [exact (add_element_next _ _ _ _ Hid E)|]. split; [reflexivity|].
      assert (M : t_map (extended t id e) = t_map t ++ [(id, under id e)]) by (unfold extended; cbn [t_map]; now rewrite ainsert_new).
      split; [exact M|]. rewrite M. destruct H as (D & F & K). repeat split.
      + rewrite map_app. cbn [map fst]. apply NoDup_app_one; [exact D|]. now apply alookup_none.
      + intros x Hx. rewrite map_app in Hx. apply in_app_or in Hx. destruct Hx as [Hx|[<-|[]]]; [auto|exact B].
      + unfold nlen in *. rewrite app_length. cbn [length]. lia.
    - exfalso. exact (add_element_err t e E).
    - exfalso. assert (P : probe (N.to_nat (2 ^ 16)) (t_map t) (n_id e) (n_id e) = None).
      { exact (add_element_panic t e E). }
      pose proof (full_length _ (probe_none _ _ Hid P)) as X. destruct H as (_ & _ & K). lia.
  Qed.

  Lemma key_spec j : has_key (lit "id") j = true <-> exists o, j = JObj o /\ exists v, field "id" o v.
  Proof using.
    unfold has_key. destruct j as [| | | | |o]; try (split; [discriminate|intros (o & E & _); discriminate]).
    destruct (field_of (lit "id") o) as [v|] eqn:E; split; try discriminate; auto.
    - intros _. exists o. split; [reflexivity|]. exists v. now apply field_spec.
    - intros (o' & Eo & v & H). injection Eo as <-. apply field_spec in H. congruence.
  Qed.

  Lemma wanted_spec now i j e w : saved aparse now j e -> wanted i j e w <-> w = if has_key (lit "id") j then n_id e else u16 (i + 1).
  Proof using.
    intros (o & v & ty & m & a & p & -> & _). unfold wanted. pose proof (key_spec (JObj o)) as K. unfold u16. change (2 ^ 16) with 65536.
    destruct (has_key (lit "id") (JObj o)).
    - destruct (proj1 K eq_refl) as (o' & E & X). injection E as <-. split.
      + intros (o' & E & [[_ H]|[H _]]); injection E as <-; [exact H|contradiction].
      + intros ->. exists o. split; [reflexivity|]. left. auto.
    - assert (X : ~ exists v, field "id" o v) by (intros X; discriminate (proj2 K (ex_intro _ o (conj eq_refl X)))). split.
      + intros (o' & E & [[H _]|[_ H]]); injection E as <-; [contradiction|exact H].
      + intros ->. exists o. split; [reflexivity|]. right. auto.
  Qed.

  (** The loop *)
  Lemma load_spec now l : forall t i n, holding (t_map t) n ->
    match load_entries aparse now t i l with
    | ROk t' => Forall (readable aparse now) l /\ n + nlen l <= 65536 /\ placed aparse now i (t_map t) l (t_map t') /\
        t_version t' = t_version t /\ t_vversion t' = t_vversion t
    | RErr => exists a j b, l = a ++ j :: b /\ Forall (readable aparse now) a /\ n + nlen a <= 65536 /\ ~ readable aparse now j
    | RPanic => exists a b, l = a ++ b /\ Forall (readable aparse now) a /\ n + nlen a = 65537
    end.
  Proof using.
    induction l as [|j l IH]; intros t i n H; cbn [load_entries].
    - destruct (holding_full _ _ H) as [B _]. repeat split; [constructor|unfold nlen; cbn [length]; lia|constructor].
    - destruct (entry_from_json aparse now j) as [e| |] eqn:E.
      + apply entry_spec in E. cbv zeta. set (e' := if has_key (lit "id") j then e else _).
        assert (W : wanted i j e (n_id e')).
        { apply (wanted_spec now); [exact E|]. unfold e'. now destruct (has_key (lit "id") j). }
        assert (Hid : n_id e' < 65536).
        { unfold e'. destruct (has_key (lit "id") j); [|apply hash_id_lt]. apply entry_spec in E. now apply entry_from_json_shape in E. }
        assert (U : forall id, under id e' = under id e) by (intros id; unfold e', under; now destruct (has_key (lit "id") j)).
        assert (R : readable aparse now j) by (exists e; exact E).
        destruct (N.eq_dec n 65536) as [->|Hn].
        * rewrite (add_element_full t e' H Hid). exists [j], l. split; [reflexivity|]. split; [now constructor|reflexivity].
        * assert (Hlt : n < 65536) by (destruct (holding_full _ _ H); lia).
          destruct (add_element_room t e' n H Hlt Hid) as (id & F & -> & M & H').
          specialize (IH (extended t id e') (i + 1) (n + 1) H').
          destruct (load_entries aparse now (extended t id e') (i + 1) l) as [t'| |].
          -- destruct IH as (A & B & C & D). repeat split; [now constructor|unfold nlen in *; cbn [length]; lia| |apply D|apply D].
             apply pl_cons with (e := e) (w := n_id e') (id := id); auto. now rewrite M, U in C.
          -- destruct IH as (a & j' & b & -> & A & B & C). exists (j :: a), j', b. split; [reflexivity|]. split; [now constructor|].
             split; [unfold nlen in *; cbn [length]; lia|exact C].
          -- destruct IH as (a & b & -> & A & B). exists (j :: a), b. split; [reflexivity|]. split; [now constructor|].
             unfold nlen in *; cbn [length]; lia.
      + exists [], j, l. destruct (holding_full _ _ H) as [B _]. split; [reflexivity|]. split; [constructor|].
        split; [unfold nlen; cbn [length]; lia|now apply entry_refused].
      + now apply entry_no_panic in E.
  Qed.

  Lemma services_fun j l l' : services j l -> services j l' -> l = l'.
  Proof using. intros (o & -> & F) (o' & E & F'). injection E as <-. pose proof (field_fun _ _ _ _ F F'). congruence. Qed.

  Lemma table_spec now j :
    match table_from_json aparse now j with
    | ROk t => fitting aparse now j /\ table_of aparse now j t
    | RErr => ~ fitting aparse now j /\ ~ too_many aparse now j
    | RPanic => too_many aparse now j
    end.
  Proof using.
    unfold table_from_json.
    assert (NoS : forall x : Prop, (forall l, ~ services j l) -> ~ fitting aparse now j /\ ~ too_many aparse now j).
    { intros _ H. split; intros (l & S & _); exact (H l S). }
    destruct j as [| | | | |o]; cbv beta iota; try (apply (NoS True); intros ? (? & E & _); discriminate E).
    destruct (field_of (lit "services") o) as [v|] eqn:F.
    2:{ cbv beta iota. apply (NoS True). intros l (o' & E & X). injection E as <-. apply field_spec in X. congruence. }
    apply field_spec in F.
    destruct v as [| | | |l|]; cbv beta iota; try (apply (NoS True); intros ? (? & E & X); injection E as <-; pose proof (field_fun _ _ _ _ F X); discriminate).
    clear NoS. assert (S : services (JObj o) l) by (exists o; auto).
    assert (H : holding (t_map (table_new now)) 1).
    { repeat split; cbn; [repeat constructor; intros []|intros id [<-|[]]; lia]. }
    pose proof (load_spec now l (table_new now) 0 1 H) as L. destruct (load_entries aparse now (table_new now) 0 l) as [t| |].
    - destruct L as (A & B & C & D & E). split.
      + exists l. repeat split; auto. lia.
      + exists l, (t_map t). repeat split; auto.
    - destruct L as (a & j & b & -> & A & B & C). split; intros (l' & S' & X & Y); rewrite <- (services_fun _ _ _ S S') in *.
      + apply C. apply (proj1 (Forall_forall _ _) X). apply in_or_app. right. now left.
      + apply C. apply (proj1 (Forall_forall _ _) X). rewrite firstn_app. apply in_or_app. right.
        assert (Q : N.of_nat (N.to_nat 65536) = 65536) by apply N2Nat.id. revert Q. generalize (N.to_nat 65536). intros c Q.
        destruct (c - length a)%nat eqn:R; [unfold nlen in B; lia|]. now left.
    - destruct L as (a & b & -> & A & B). exists (a ++ b). repeat split; auto.
      + assert (Q : N.of_nat (N.to_nat 65536) = 65536) by apply N2Nat.id. revert Q. generalize (N.to_nat 65536). intros c Q.
        rewrite firstn_app. unfold nlen in B. replace (c - length a)%nat with 0%nat by lia.
        cbn [firstn]. rewrite app_nil_r, firstn_all2 by lia. exact A.
      + unfold nlen in *. rewrite app_length. lia.
  Qed.
  Lemma fitting_or now j : fitting aparse now j -> ~ too_many aparse now j.
  Proof using. intros (l & S & _ & B) (l' & S' & _ & B'). rewrite <- (services_fun _ _ _ S S') in B'. lia. Qed.

  Lemma table_accepted now j : (exists t, table_from_json aparse now j = ROk t) <-> fitting aparse now j.
  Proof using.
    pose proof (table_spec now j) as T. destruct (table_from_json aparse now j) as [t| |]; split.
    - intros _. apply T.
    - eauto.
    - intros [t E]. discriminate.
    - tauto.
    - intros [t E]. discriminate.
    - intros F. exfalso. now apply (fitting_or now j).
  Qed.
  Lemma table_panics now j : table_from_json aparse now j = RPanic <-> too_many aparse now j.
  Proof using.
    pose proof (table_spec now j) as T. destruct (table_from_json aparse now j) as [t| |]; split; try discriminate; auto.
    - intros F. exfalso. now apply (fitting_or now j).
    - tauto.
  Qed.
  Lemma table_read now j t : table_from_json aparse now j = ROk t -> table_of aparse now j t.
  Proof using. intros E. pose proof (table_spec now j) as T. rewrite E in T. apply T. Qed.

  (** *** The whole document *)
  Lemma usize_spec v n : as_usize v = Some n <-> v = JNum (Z.of_N n).
  Proof using.
    unfold as_usize. split.
    - destruct v; try discriminate. destruct (0 <=? z)%Z eqn:Q; [|discriminate]. intros E. injection E as <-. f_equal. lia.
    - intros ->. replace (0 <=? Z.of_N n)%Z with true by lia. now rewrite N2Z.id.
  Qed.
  Lemma config_spec now j p : pconfig_from_json aparse uparse now j = ROk p <->
    exists o v, j = JObj o /\ field "svc_table" o v /\ table_from_json aparse now v = ROk (p_table p) /\
      identity_of uparse o (p_uuid p) (p_passwd p) (p_version p).
  Proof using.
    unfold pconfig_from_json, identity_of. split.
    - destruct j as [| | | | |o]; try discriminate. destruct (field_of (lit "svc_table") o) as [v|] eqn:F; [|discriminate].
      destruct (table_from_json aparse now v) as [t| |] eqn:T; try discriminate.
      destruct (bind (field_of (lit "uuid") o) as_str) as [u|] eqn:E1; [|discriminate].
      destruct (bind (field_of (lit "passwd") o) as_str) as [q|] eqn:E2; [|discriminate].
      destruct (bind (field_of (lit "version") o) as_usize) as [n|] eqn:E3; [|discriminate].
      destruct (uparse u) as [u'|] eqn:U; [|discriminate]. destruct (uparse q) as [q'|] eqn:Q; [|discriminate].
      intros E. injection E as <-. cbn [p_table p_uuid p_passwd p_version].
      apply needed_spec in E1, E2, E3. destruct E1 as (v1 & F1 & U1), E2 as (v2 & F2 & U2), E3 as (v3 & F3 & U3).
      apply text_spec in U1, U2. apply usize_spec in U3. subst. apply field_spec in F. exists o, v. repeat split; auto. exists u, q. auto.
    - intros (o & v & -> & F & T & u & q & F1 & F2 & F3 & U & Q). apply field_spec in F, F1, F2, F3. rewrite F, T, F1, F2, F3.
      cbn [bind as_str]. rewrite (proj2 (usize_spec _ _) eq_refl), U, Q. now destruct p.
  Qed.
  Lemma config_panics now j : pconfig_from_json aparse uparse now j = RPanic <->
    exists o v, j = JObj o /\ field "svc_table" o v /\ too_many aparse now v.
  Proof using.
    unfold pconfig_from_json. split.
    - destruct j as [| | | | |o]; try discriminate. destruct (field_of (lit "svc_table") o) as [v|] eqn:F; [|discriminate].
      apply field_spec in F. intros E. exists o, v. repeat split; auto. apply table_panics.
      destruct (table_from_json aparse now v) as [t| |]; try discriminate; auto.
      repeat match type of E with match ?x with _ => _ end = _ => destruct x; try discriminate end.
    - intros (o & v & -> & F & T). apply field_spec in F. apply table_panics in T. now rewrite F, T.
  Qed.
End Doc.

(** ** A document that brings the program down *)
Definition small_doc : json := JObj [(lit "svc_type", JNum 0); (lit "mac", JStr []); (lit "address", JStr []); (lit "path", JStr [])].
Lemma small_saved aparse now : saved aparse now small_doc
  {| n_id := 0; n_svc := svc_control; n_static := false; n_enabled := false; n_seen := now; n_active := true |}.
Proof. apply entry_spec. reflexivity. Qed.
Definition big_doc (n : N) : json := JObj [(lit "svc_table", JObj [(lit "services", JArr (repeat small_doc (N.to_nat n)))])].
Lemma big_panics aparse uparse now : pconfig_from_json aparse uparse now (big_doc 65536) = RPanic.
Proof.
  apply config_panics. exists [(lit "svc_table", JObj [(lit "services", JArr (repeat small_doc (N.to_nat 65536)))])],
    (JObj [(lit "services", JArr (repeat small_doc (N.to_nat 65536)))]).
  split; [reflexivity|]. split; [exists [], []; split; [reflexivity|intros []]|].
  assert (Q : N.of_nat (N.to_nat 65536) = 65536) by apply N2Nat.id. unfold too_many. revert Q. generalize (N.to_nat 65536). intros c Q.
  exists (repeat small_doc c). split; [|split].
  - eexists. split; [reflexivity|]. exists [], []. split; [reflexivity|intros []].
  - apply Forall_forall. intros x Hx.
    assert (I : In x (repeat small_doc c)) by (rewrite <- (firstn_skipn c); apply in_or_app; now left).
    apply repeat_spec in I. subst x. eexists. apply small_saved.
  - unfold nlen. rewrite repeat_length. lia.
Qed.
