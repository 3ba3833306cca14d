(** Memory of the C interface. *)
From Coq Require Import NArith List Bool Lia ZArith.
From Coq Require Import ZifyBool ZifyNat ZifyN.
From Verif.Model Require Import Bytes Utf8 Service SvcTable Exports.
From Verif.Spec Require Import ExportsSpec.
From Verif.Proofs Require Import BytesFacts.
Import ListNotations.
Local Open Scope N_scope.

Lemma load_ext m m' a n : (forall x, a <= x < a + n -> m_byte m' x = m_byte m x) -> load m' a n = load m a n.
Proof. intros H. unfold load. apply map_ext_in. intros i I. apply in_seq in I. apply H. lia. Qed.
Lemma load_length m a n : length (load m a n) = N.to_nat n.
Proof. unfold load. now rewrite map_length, seq_length. Qed.
Lemma load_other m a d b n : b + n <= a \/ a + nlen d <= b -> load (store a d m) b n = load m b n.
Proof.
  intros H. apply load_ext. intros x X. cbn [store m_byte]. destruct ((a <=? x) && (x <? a + nlen d)) eqn:E; [lia|reflexivity].
Qed.
Lemma load_store m a d : load (store a d m) a (nlen d) = d.
Proof.
  unfold load, nlen. rewrite Nat2N.id. apply nth_ext with (d := 0) (d' := 0); [now rewrite map_length, seq_length|].
  intros i I. rewrite map_length, seq_length in I.
  rewrite (nth_indep _ 0 (m_byte (store a d m) (a + N.of_nat 0))) by (rewrite map_length, seq_length; exact I).
  rewrite (map_nth (fun j => m_byte (store a d m) (a + N.of_nat j))), seq_nth by exact I. cbn [store m_byte Nat.add]. unfold nlen.
  destruct ((a <=? a + N.of_nat i) && (a + N.of_nat i <? a + N.of_nat (length d))) eqn:E; [|lia].
  f_equal. lia.
Qed.
Lemma load_split m a n k : load m a (n + k) = load m a n ++ load m (a + n) k.
Proof.
  unfold load. rewrite N2Nat.inj_add, seq_app, map_app. f_equal. cbn [Nat.add].
  apply nth_ext with (d := 0) (d' := 0); [now rewrite !map_length, !seq_length|].
  intros i I. rewrite map_length, seq_length in I.
  rewrite (nth_indep _ 0 (m_byte m (a + N.of_nat 0))) by (rewrite map_length, seq_length; exact I).
  rewrite (map_nth (fun j => m_byte m (a + N.of_nat j))), seq_nth by exact I.
  rewrite (nth_indep _ 0 (m_byte m (a + n + N.of_nat 0))) by (rewrite map_length, seq_length; exact I).
  rewrite (map_nth (fun j => m_byte m (a + n + N.of_nat j))), seq_nth by exact I. f_equal. lia.
Qed.

Lemma accessible_in m b n a k : In (b, n) (m_blocks m) -> b <= a -> a + k <= b + n -> accessible m a k = true.
Proof. intros I A B. unfold accessible. apply existsb_exists. exists (b, n). split; [exact I|]. cbn [fst snd]. lia. Qed.

Lemma apart_sym a b : apart a b -> apart b a.
Proof. unfold apart. tauto. Qed.
Lemma apart_in l x y : ForallOrdPairs apart l -> In x l -> In y l -> x = y \/ apart x y.
Proof.
  intros F X Y. destruct (ForallOrdPairs_In F x y X Y) as [E|[E|E]]; [now left|now right|right; now apply apart_sym].
Qed.

(** ** Removal *)
Lemma remove_behind p n live base : NoDup (map fst live) -> Forall (fun x => 16 <= fst x) live -> In (p, n) live ->
  remove_block (behind (p, n)) (map behind live ++ base) = Some (map behind (drop p live) ++ base).
Proof.
  induction live as [|[q k] live IH]; intros ND F I; [contradiction|]. cbn [map app remove_block drop filter fst].
  apply NoDup_cons_iff in ND. destruct ND as [N ND]. cbn [fst] in N. pose proof (Forall_inv F) as F1. cbn [fst] in F1. apply Forall_inv_tail in F.
  destruct (N.eqb_spec q p) as [E|E].
  - subst q. destruct I as [I|I]; [|elim N; apply in_map_iff; now exists (p, n)]. injection I as I. subst k.
    rewrite !N.eqb_refl. cbn [andb negb]. f_equal. f_equal. f_equal. unfold drop.
    clear IH F F1. induction live as [|[q k] live IH]; [reflexivity|]. cbn [filter fst]. cbn in N. destruct (N.eqb_spec q p) as [E|E]; [subst; tauto|].
    cbn [negb]. f_equal. apply IH; [tauto|]. apply NoDup_cons_iff in ND. tauto.
  - destruct I as [I|I]; [injection I as I1 I2; congruence|]. cbn [negb map app].
    assert (X : 16 <= p) by (rewrite Forall_forall in F; exact (F (p, n) I)).
    unfold behind at 1 2 3 4; cbn [fst snd]. destruct (p - 16 =? q - 16) eqn:Y; [lia|]. cbn [andb]. rewrite (IH ND F I). reflexivity.
Qed.
Lemma drop_in p l x : In x (drop p l) <-> In x l /\ fst x <> p.
Proof. unfold drop. rewrite filter_In. destruct (N.eqb_spec (fst x) p); cbn; intuition congruence. Qed.
Lemma ord_remove l b r : ForallOrdPairs apart l -> remove_block b l = Some r -> ForallOrdPairs apart r.
Proof.
  revert r. induction l as [|x l IH]; intros r F H; [discriminate|]. cbn [remove_block] in H. inversion F as [|y z A B]; subst.
  destruct ((fst b =? fst x) && (snd b =? snd x)); [injection H as H; now subst|].
  destruct (remove_block b l) as [r'|] eqn:E; [|discriminate]. injection H as H. subst r. constructor; [|now apply IH].
  clear - A E. revert r' E. induction l as [|y l IH]; intros r' E; [discriminate|]. cbn [remove_block] in E. inversion A as [|u v A1 A2]; subst.
  destruct ((fst b =? fst y) && (snd b =? snd y)); [injection E as E; now subst|].
  destruct (remove_block b l) as [r2|]; [|discriminate]. injection E as E. subst r'. constructor; [exact A1|]. now apply IH.
Qed.
Lemma drop_keys p l : NoDup (map fst l) -> NoDup (map fst (drop p l)).
Proof.
  induction l as [|x l IH]; intros H; [constructor|]. cbn [map] in H. apply NoDup_cons_iff in H. destruct H as [H1 H2].
  unfold drop. cbn [filter]. destruct (fst x =? p); cbn [negb]; [now apply IH|]. cbn [map]. apply NoDup_cons_iff. split; [|now apply IH].
  intros I. apply H1. apply in_map_iff in I. destruct I as [y [I1 I2]]. apply in_map_iff. exists y. split; [exact I1|]. now apply filter_In in I2.
Qed.

(** ** Free *)
Lemma header_read n : n < 2 ^ 64 -> of_be (skipn 8 (to_be 8 n ++ to_be 8 1)) = 1 /\ of_be (firstn 8 (to_be 8 n ++ to_be 8 1)) = n.
Proof.
  intros H. rewrite skipn_app, firstn_app, to_be_length, Nat.sub_diag, firstn_O, app_nil_r.
  rewrite <- (to_be_length 8 n) at 1. rewrite skipn_all. cbn [app skipn]. rewrite <- (to_be_length 8 n) at 2. rewrite firstn_all.
  split; [reflexivity|]. now apply of_be_to_be_small.
Qed.
Lemma free_sound base s p n : c_sound base s -> In (p, n) (c_live s) ->
  exists l, ac_free p (c_mem s) = Val tt {| m_byte := m_byte (c_mem s); m_blocks := l |} /\
            c_sound base {| c_mem := {| m_byte := m_byte (c_mem s); m_blocks := l |}; c_live := drop p (c_live s) |}.
Proof.
  intros [B A K L] I. pose proof L as L0. rewrite Forall_forall in L0. destruct (L0 _ I) as [L1 [L2 L3]]. cbn [fst snd] in L1, L2, L3.
  unfold ac_free, LAYOUT. destruct (p <? 16) eqn:E; [lia|].
  assert (R : remove_block (behind (p, n)) (m_blocks (c_mem s)) = Some (map behind (drop p (c_live s)) ++ base)).
  { rewrite B. apply remove_behind; [exact K| |exact I]. eapply Forall_impl; [|exact L]. intros x X. exact (proj1 X). }
  unfold read_mem. rewrite (accessible_in _ (p - 16) (n + 16)); [|rewrite B; apply in_or_app; left; apply in_map_iff; exists (p, n); now split|lia|lia].
  cbn [obind]. rewrite L3. destruct (header_read (n + 16)) as [H1 H2]; [change (2 ^ 64) with 18446744073709551616; change (2 ^ 63) with 9223372036854775808 in L2; lia|].
  rewrite H1, H2, N.eqb_refl. unfold behind in R; cbn [fst snd] in R. rewrite R. eexists. split; [reflexivity|]. constructor; cbn [c_mem c_live m_blocks].
  - reflexivity.
  - exact (ord_remove _ _ _ A R).
  - now apply drop_keys.
  - apply Forall_forall. intros x X. apply drop_in in X. destruct X as [X _]. exact (L0 x X).
Qed.

(** ** Malloc *)
Lemma malloc_sound ovf fresh base s n : sane_alloc fresh -> c_sound base s -> n + 16 < 2 ^ 63 -> fresh (c_mem s) (n + 16) <> 0 ->
  exists p m, ac_malloc ovf fresh n (c_mem s) = Val p m /\ c_sound base {| c_mem := m; c_live := (p, n) :: c_live s |} /\
    forall x, In x (c_live s) -> load m (fst x) (snd x) = load (c_mem s) (fst x) (snd x).
Proof.
  intros S [B A K L] N F. unfold ac_malloc, LAYOUT. change (2 ^ 63) with 9223372036854775808 in N.
  assert (U : USIZE = 18446744073709551616) by reflexivity. assert (Z : ISIZE_MAX = 9223372036854775807) by reflexivity.
  replace (16 + n) with (n + 16) by lia. rewrite U, Z.
  replace (ovf && (18446744073709551616 <=? n + 16)) with false by (destruct ovf; cbn [andb]; lia). cbn [andb].
  rewrite N.mod_small by lia. destruct (9223372036854775807 <? n + 16) eqn:E; [lia|]. clear E U Z.
  unfold alloc. destruct (S (c_mem s) (n + 16)) as [X|[X1 X2]]; [contradiction|].
  set (a := fresh (c_mem s) (n + 16)) in *. clearbody a. destruct (N.eqb_spec a 0) as [Y|_]; [contradiction|].
  set (m1 := {| m_byte := m_byte (c_mem s); m_blocks := (a, n + 16) :: m_blocks (c_mem s) |}).
  set (h := to_be 8 (n + 16) ++ to_be 8 1). assert (HL : nlen h = 16) by (unfold h, nlen; rewrite app_length, !to_be_length; reflexivity).
  unfold write_mem. rewrite (accessible_in m1 a (n + 16)); [|now left|lia|lia]. cbn [obind]. eexists. eexists. split; [reflexivity|].
  assert (AP : forall x, In x (c_live s) -> apart (a, n + 16) (behind x)).
  { intros x I. rewrite Forall_forall in X2. apply X2. rewrite B. apply in_or_app. left. now apply in_map. }
  split; [constructor; cbn [c_mem c_live store m_blocks map app fst snd]|].
  - unfold behind at 1; cbn [fst snd]. replace (a + 16 - 16) with a by lia. cbn [m1 m_blocks]. now rewrite B.
  - cbn [m1 m_blocks]. constructor; [exact X2|exact A].
  - apply NoDup_cons_iff. split; [|exact K]. intros I. apply in_map_iff in I. destruct I as [x [I1 I2]].
    specialize (AP x I2). rewrite Forall_forall in L. destruct (L x I2) as [L1 _]. unfold apart, behind in AP; cbn [fst snd] in AP. lia.
  - constructor.
    + cbn [fst snd]. split; [lia|]. split; [change (2 ^ 63) with 9223372036854775808; lia|]. replace (a + 16 - 16) with a by lia.
      rewrite <- HL at 1. rewrite load_store. reflexivity.
    + apply Forall_forall. intros x I. pose proof L as L0. rewrite Forall_forall in L0. destruct (L0 x I) as [L1 [L2 L3]]. split; [exact L1|]. split; [exact L2|].
      rewrite load_other; [exact L3|]. rewrite HL. specialize (AP x I). unfold apart, behind in AP; cbn [fst snd] in AP. lia.
  - intros x I. rewrite load_other; [reflexivity|]. rewrite HL. specialize (AP x I). rewrite Forall_forall in L. destruct (L x I) as [L1 _].
    unfold apart, behind in AP; cbn [fst snd] in AP. lia.
Qed.

(** ** Writes *)
Lemma store_sound base s p n a d : c_sound base s -> In (p, n) (c_live s) -> p <= a -> a + nlen d <= p + n ->
  write_mem a d (c_mem s) = Val tt (store a d (c_mem s)) /\ c_sound base {| c_mem := store a d (c_mem s); c_live := c_live s |} /\
  forall x, In x (c_live s) -> fst x <> p -> load (store a d (c_mem s)) (fst x) (snd x) = load (c_mem s) (fst x) (snd x).
Proof.
  intros [B A K L] I P1 P2. pose proof L as L0. rewrite Forall_forall in L0. destruct (L0 _ I) as [L1 [L2 L3]]. cbn [fst snd] in L1, L2, L3.
  assert (IB : forall x, In x (c_live s) -> In (behind x) (m_blocks (c_mem s))) by (intros x X; rewrite B; apply in_or_app; left; now apply in_map).
  assert (AP : forall x, In x (c_live s) -> fst x = p \/ apart (behind (p, n)) (behind x)).
  { intros x X. destruct (apart_in _ _ _ A (IB _ I) (IB _ X)) as [E|E]; [|now right]. left.
    unfold behind in E; cbn [fst snd] in E. injection E as E1 E2. destruct (L0 x X) as [Y _]. lia. }
  split; [|split; [constructor; cbn [c_mem c_live store m_blocks]; auto|]].
  - unfold write_mem. rewrite (accessible_in _ (p - 16) (n + 16)); [reflexivity|exact (IB _ I)|lia|lia].
  - apply Forall_forall. intros x X. destruct (L0 x X) as [M1 [M2 M3]]. split; [exact M1|]. split; [exact M2|]. rewrite load_other; [exact M3|].
    destruct (AP x X) as [E|E]; [lia|]. unfold apart, behind in E; cbn [fst snd] in E. lia.
  - intros x X N. apply load_other. destruct (AP x X) as [E|E]; [contradiction|]. unfold apart, behind in E; cbn [fst snd] in E. destruct (L0 x X) as [M1 _]. lia.
Qed.

(** ** Programs *)
Lemma step_sound ovf fresh base s o : sane_alloc fresh -> c_sound base s -> c_legal fresh o s ->
  exists s', c_step ovf fresh o s = Some s' /\ c_sound base s' /\
    forall x, In x (c_live s) -> In x (c_live s') ->
      (match o with CStore a d => ~ (fst x <= a /\ a + nlen d <= fst x + snd x) | _ => True end) ->
      load (c_mem s') (fst x) (snd x) = load (c_mem s) (fst x) (snd x).
Proof.
  intros S V G. destruct o as [n|p|a d]; cbn [c_step c_legal] in *.
  - destruct G as [G1 G2]. destruct (malloc_sound ovf fresh base s n S V G1 G2) as [p [m [E [W X]]]]. rewrite E.
    eexists. split; [reflexivity|]. split; [exact W|]. intros x I _ _. now apply X.
  - destruct G as [n G]. destruct (free_sound base s p n V G) as [l [E W]]. rewrite E. eexists. split; [reflexivity|]. split; [exact W|].
    intros x _ _ _. now apply load_ext.
  - destruct G as [p [n [G1 [G2 G3]]]]. destruct (store_sound base s p n a d V G1 G2 G3) as [E [W X]]. rewrite E. eexists. split; [reflexivity|]. split; [exact W|].
    intros x I _ N. apply X; [exact I|]. intros Y. apply N.
    assert (x = (p, n)).
    { pose proof (cs_keys _ _ V) as K. clear - K I G1 Y. induction (c_live s) as [|z l IH]; [contradiction|]. cbn [map] in K. apply NoDup_cons_iff in K. destruct K as [K1 K2].
      destruct I as [I|I], G1 as [G|G]; try congruence; [| |now apply IH].
      - subst z. elim K1. apply in_map_iff. exists (p, n). split; [now symmetry|exact G].
      - subst z. elim K1. apply in_map_iff. exists x. split; [exact Y|exact I]. }
    subst x. cbn [fst snd]. lia.
Qed.
Theorem run_sound ovf fresh base : sane_alloc fresh -> forall ops s, c_sound base s -> c_legal_run ovf fresh ops s ->
  exists s', c_run ovf fresh ops s = Some s' /\ c_sound base s'.
Proof.
  intros S. induction ops as [|o ops IH]; intros s V G; cbn [c_run]; [exists s; now split|]. destruct G as [G1 G2].
  destruct (step_sound ovf fresh base s o S V G1) as [s1 [E [W _]]]. rewrite E in *. now apply IH.
Qed.
Lemma sound_new m : ForallOrdPairs apart (m_blocks m) -> c_sound (m_blocks m) {| c_mem := m; c_live := [] |}.
Proof. intros H. constructor; cbn; auto; constructor. Qed.
