(** The file logger. *)
From Coq Require Import String NArith List Bool Lia ZArith ZifyBool ZifyNat ZifyN.
From Verif.Model Require Import Bytes Text Alist Logger.
From Verif.Spec Require Import LoggerSpec.
From Verif.Proofs Require Import BytesFacts AlistFacts.
Import ListNotations.
Local Open Scope N_scope.

(** ** Suffixes *)
Lemma suffix_refl : forall a, suffix a a.
Proof. intros a. now exists []. Qed.
Lemma suffix_trans : forall a b c, suffix a b -> suffix b c -> suffix a c.
Proof. intros a b c [p ->] [q ->]. exists (q ++ p). now rewrite app_assoc. Qed.
Lemma suffix_app : forall a b c, suffix a b -> suffix (a ++ c) (b ++ c).
Proof. intros a b c [p ->]. exists p. now rewrite app_assoc. Qed.
Lemma suffix_drop : forall p a, suffix a (p ++ a).
Proof. intros p a. now exists p. Qed.

(** ** Views *)
Lemma content_insert : forall k v f k', content k' (ainsert k v f) = if k' =? k then v else content k' f.
Proof. intros. unfold content. rewrite alookup_insert. destruct (k' =? k); reflexivity. Qed.
Lemma content_remove : forall k f k', content k' (aremove k f) = if k' =? k then [] else content k' f.
Proof. intros. unfold content. rewrite alookup_remove. destruct (k' =? k); reflexivity. Qed.
Lemma backups_ext : forall n f g, (forall i, (1 <= i <= n)%nat -> content (bak (N.of_nat i)) f = content (bak (N.of_nat i)) g) -> backups n f = backups n g.
Proof.
  induction n as [|n IH]; intros f g H; [reflexivity|]. cbn [backups]. rewrite H by lia. f_equal. apply IH. intros i Hi. apply H. lia.
Qed.
Lemma move_backups : forall n j f g, (1 <= j)%nat -> (S j <= n)%nat ->
  (forall i, i <> j -> i <> S j -> content (bak (N.of_nat i)) f = content (bak (N.of_nat i)) g) ->
  content (bak (N.of_nat j)) g = [] -> content (bak (N.of_nat (S j))) g = content (bak (N.of_nat j)) f ->
  (content (bak (N.of_nat (S j))) f = [] \/ S j = n) -> suffix (backups n g) (backups n f) /\ (content (bak (N.of_nat (S j))) f = [] -> backups n g = backups n f).
Proof.
  induction n as [|n IH]; intros j f g J1 Jn H E0 E1 C; [lia|]. cbn [backups]. destruct (Nat.eq_dec j n) as [->|NE].
  - destruct n as [|m]; [lia|]. cbn [backups]. rewrite E1, E0. assert (X : backups m f = backups m g) by (apply backups_ext; intros i Hi; apply H; lia). rewrite X.
    cbn [app]. split; [exists (content (bak (N.of_nat (S (S m)))) f); reflexivity|]. intros ->. reflexivity.
  - destruct C as [C|C]; [|lia]. destruct (IH j f g J1 ltac:(lia) H E0 E1 (or_introl C)) as [_ E]. rewrite (E C). rewrite (H (S n)) by lia. split; [apply suffix_refl|reflexivity].
Qed.
(** A backup is moved up by one. *)
Lemma move_view : forall n j f c, 1 <= j -> j + 1 <= n -> alookup (bak j) f = Some c -> (alookup (bak (j + 1)) f = None \/ j + 1 = n) ->
  let g := ainsert (bak (j + 1)) c (aremove (bak j) f) in suffix (view n g) (view n f).
Proof.
  intros n j f c J1 Jn E C g. unfold view.
  assert (G : forall k, content k g = if k =? bak (j + 1) then c else if k =? bak j then [] else content k f).
  { intros k. unfold g. rewrite content_insert, content_remove. reflexivity. }
  rewrite (G CUR). replace (CUR =? bak (j + 1)) with false by (unfold CUR, bak; lia). replace (CUR =? bak j) with false by (unfold CUR, bak; lia). apply suffix_app.
  destruct (move_backups (N.to_nat n) (N.to_nat j) f g) as [S _]; try lia.
  - intros i N1 N2. rewrite G. replace (bak (N.of_nat i) =? bak (j + 1)) with false by (unfold bak; lia). replace (bak (N.of_nat i) =? bak j) with false by (unfold bak; lia). reflexivity.
  - rewrite G. replace (bak (N.of_nat (N.to_nat j)) =? bak (j + 1)) with false by (unfold bak; lia). replace (bak (N.of_nat (N.to_nat j)) =? bak j) with true by (unfold bak; lia). reflexivity.
  - rewrite G. replace (bak (N.of_nat (S (N.to_nat j))) =? bak (j + 1)) with true by (unfold bak; lia). rewrite N2Nat.id. unfold content. now rewrite E.
  - destruct C as [C|C]; [left|right; lia]. replace (N.of_nat (S (N.to_nat j))) with (j + 1) by lia. unfold content. now rewrite C.
  - exact S.
Qed.
(** The log file becomes the first backup. *)
Lemma first_view : forall n f c, 1 <= n -> alookup CUR f = Some c -> (alookup (bak 1) f = None \/ n = 1) ->
  let g := ainsert (bak 1) c (aremove CUR f) in suffix (view n g) (view n f).
Proof.
  intros n f c N1 E C g. unfold view.
  assert (G : forall k, content k g = if k =? bak 1 then c else if k =? CUR then [] else content k f).
  { intros k. unfold g. rewrite content_insert, content_remove. reflexivity. }
  rewrite (G CUR). replace (CUR =? bak 1) with false by reflexivity. rewrite N.eqb_refl, app_nil_r. unfold content at 1. rewrite E.
  assert (X : forall m, exists b, backups m f = b ++ content (bak 1) f /\ backups m g = b ++ c \/ m = O).
  { intros [|m]; [exists []; auto|]. induction m as [|m (b & IH)].
    - exists []. left. cbn [backups]. rewrite G. change (bak (N.of_nat 1) =? bak 1) with true. rewrite !app_nil_r. auto.
    - destruct IH as [[I1 I2]|X]; [|discriminate]. exists (content (bak (N.of_nat (S (S m)))) f ++ b). left. cbn [backups] in *. rewrite I1, I2. rewrite G.
      replace (bak (N.of_nat (S (S m))) =? bak 1) with false by (unfold bak; lia). replace (bak (N.of_nat (S (S m))) =? CUR) with false by (unfold bak, CUR; lia). rewrite !app_assoc. auto. }
  destruct (X (N.to_nat n)) as (b & [[X1 X2]|X0]); [|lia]. rewrite X1, X2.
  destruct C as [C| ->].
  - unfold content. rewrite C. rewrite app_nil_r. apply suffix_refl.
  - change (N.to_nat 1) with 1%nat in X1. cbn [backups] in X1. rewrite app_nil_r in X1. change (N.of_nat 1) with 1 in X1.
    assert (B : b = []).
    { apply (f_equal (@List.length N)) in X1. rewrite app_length in X1. destruct b; [reflexivity|cbn [List.length] in X1; lia]. }
    rewrite B. cbn [app]. apply suffix_drop.
Qed.

(** ** Rotation, whatever fails *)
Lemma usub_exact : forall a b, b <= a -> a < 2 ^ 64 -> usub a b = a - b.
Proof.
  intros a b H A. unfold usub. replace (a + 2 ^ 64 - b) with (a - b + 1 * 2 ^ 64) by lia. rewrite N.mod_add by discriminate. apply N.mod_small. lia.
Qed.
(** The parts that stay: everything but the files and the counter *)
Definition same_config (l l' : logger) : Prop := lg_level l' = lg_level l /\ lg_limit l' = lg_limit l /\ lg_rotations l' = lg_rotations l.
Lemma same_refl : forall l, same_config l l. Proof. repeat split. Qed.
Lemma same_trans : forall a b c, same_config a b -> same_config b c -> same_config a c.
Proof. intros a b c (A & B & C) (D & E & F). repeat split; congruence. Qed.

Section Io.
  Variable io : N -> option N.
  Lemma shift_one_safe : forall i l, let n := lg_rotations l in n < 2 ^ 64 -> i + 1 < n -> (alookup (bak (n - i)) (lg_files l) = None \/ i = 0) ->
    match shift_one io i l with
    | LOk l' => same_config l l' /\ lg_written l' = lg_written l /\ suffix (view n (lg_files l')) (view n (lg_files l)) /\ alookup (bak (n - (i + 1))) (lg_files l') = None
                /\ (lg_ops l' <= lg_ops l + 2) /\ alookup CUR (lg_files l') = alookup CUR (lg_files l)
                /\ forall k, alookup k (lg_files l') = if k =? bak (n - i) then match alookup (bak (n - (i + 1))) (lg_files l) with Some c => Some c | None => alookup k (lg_files l) end
                                                       else if k =? bak (n - (i + 1)) then None else alookup k (lg_files l)
    | LErr l' => same_config l l' /\ lg_files l' = lg_files l
    | LPanic _ => False
    end.
  Proof.
    intros i l n Hn Hi C. unfold shift_one. fold n. rewrite (usub_exact n i) by lia. rewrite usub_exact by lia. replace (n - i - 1) with (n - (i + 1)) by lia.
    unfold exists_file. destruct (alookup (bak (n - (i + 1))) (lg_files l)) as [c|] eqn:E.
    - unfold rename. cbn [op_done lg_ops lg_files]. rewrite E. destruct (io (lg_ops l + 1)).
      + split; [repeat split|reflexivity].
      + cbn [op_done set_files lg_ops lg_files lg_written]. split; [repeat split|]. split; [reflexivity|]. split; [|split; [|split; [|split]]].
        * pose proof (move_view n (n - (i + 1)) (lg_files l) c ltac:(lia) ltac:(lia) E) as M. replace (n - (i + 1) + 1) with (n - i) in M by lia. apply M. destruct C as [C| ->]; [now left|right; lia].
        * rewrite alookup_insert, alookup_remove. replace (bak (n - (i + 1)) =? bak (n - i)) with false by (unfold bak; lia). now rewrite N.eqb_refl.
        * lia.
        * rewrite alookup_insert, alookup_remove. replace (CUR =? bak (n - i)) with false by (unfold bak, CUR; lia). replace (CUR =? bak (n - (i + 1))) with false by (unfold bak, CUR; lia). reflexivity.
        * intros k. rewrite alookup_insert, alookup_remove. reflexivity.
    - cbn [op_done lg_ops lg_files lg_written]. split; [repeat split|]. split; [reflexivity|]. split; [apply suffix_refl|]. split; [exact E|]. split; [lia|]. split; [reflexivity|].
      intros k. destruct (k =? bak (n - i)); [reflexivity|]. destruct (N.eqb_spec k (bak (n - (i + 1)))) as [->|]; [exact E|reflexivity].
  Qed.
  (** The files when [i] rounds are done *)
  Definition shifted (n i : N) (f : files) (k : N) : option bytes :=
    if (bak (n - i) <? k) && (k <=? bak n) then
      match alookup (k - 1) f with
      | Some c => Some c
      | None => if k =? bak n then alookup k f else None
      end
    else if (k =? bak (n - i)) && (0 <? i) then None
    else alookup k f.
  Lemma shift_safe : forall k i l n f0, lg_rotations l = n -> n < 2 ^ 64 -> i + N.of_nat k + 1 = n -> (alookup (bak (n - i)) (lg_files l) = None \/ i = 0) ->
    (forall q, alookup q (lg_files l) = shifted n i f0 q) ->
    match shift io k i l with
    | LOk l' => same_config l l' /\ lg_written l' = lg_written l /\ suffix (view n (lg_files l')) (view n (lg_files l)) /\ (alookup (bak 1) (lg_files l') = None \/ n = 1)
                /\ (lg_ops l' <= lg_ops l + 2 * N.of_nat k) /\ alookup CUR (lg_files l') = alookup CUR (lg_files l) /\ (forall q, alookup q (lg_files l') = shifted n (n - 1) f0 q)
    | LErr l' => same_config l l' /\ suffix (view n (lg_files l')) (view n (lg_files l))
    | LPanic _ => False
    end.
  Proof.
    induction k as [|k IH]; intros i l n f0 Hl Hn Hk C SH; cbn [shift].
    - split; [apply same_refl|]. split; [reflexivity|]. split; [apply suffix_refl|]. assert (i = n - 1) by lia. subst i. replace (n - (n - 1)) with 1 in C by lia.
      split; [destruct C; [now left|right; lia]|]. split; [lia|]. split; [reflexivity|exact SH].
    - pose proof (shift_one_safe i l) as S1. cbv zeta in S1. rewrite Hl in S1. specialize (S1 Hn ltac:(lia) C). destruct (shift_one io i l) as [l1|l1|l1]; cbn [lbind]; [| |contradiction].
      + destruct S1 as (A & W & V & B & O & U & L). assert (R : lg_rotations l1 = n) by (destruct A as (_ & _ & A); congruence).
        assert (SH' : forall q, alookup q (lg_files l1) = shifted n (i + 1) f0 q).
        { intros q. rewrite L, !SH. unfold shifted. destruct (N.eqb_spec q (bak (n - i))) as [->|NQ].
          - replace (bak (n - (i + 1)) <? bak (n - i)) with true by (unfold bak; lia). replace (bak (n - i) <=? bak n) with true by (unfold bak; lia). cbn [andb].
            replace ((bak (n - i) <? bak (n - (i + 1))) && (bak (n - (i + 1)) <=? bak n)) with false by (unfold bak; lia).
            replace ((bak (n - (i + 1)) =? bak (n - i)) && (0 <? i)) with false by (unfold bak; lia).
            replace (bak (n - i) - 1) with (bak (n - (i + 1))) by (unfold bak; lia). destruct (alookup (bak (n - (i + 1))) f0); [reflexivity|].
            replace ((bak (n - i) <? bak (n - i)) && true) with false by lia. cbn [andb]. destruct (N.eqb_spec (bak (n - i)) (bak n)) as [Q|Q].
            + replace (0 <? i) with false by (unfold bak in Q; lia). reflexivity.
            + replace (0 <? i) with true by (unfold bak in Q; lia). reflexivity.
          - destruct (N.eqb_spec q (bak (n - (i + 1)))) as [->|NQ'].
            + replace ((bak (n - (i + 1)) <? bak (n - (i + 1))) && (bak (n - (i + 1)) <=? bak n)) with false by lia. replace (true && (0 <? i + 1)) with true by lia. reflexivity.
            + replace ((bak (n - (i + 1)) <? q) && (q <=? bak n)) with ((bak (n - i) <? q) && (q <=? bak n)) by (unfold bak in *; lia). reflexivity. }
        specialize (IH (i + 1) l1 n f0 R Hn ltac:(lia) (or_introl B) SH').
        destruct (shift io k (i + 1) l1) as [l2|l2|l2]; [| |contradiction].
        * destruct IH as (A' & W' & V' & B' & O' & U' & L'). split; [now apply (same_trans l l1)|]. split; [congruence|]. split; [now apply (suffix_trans _ (view n (lg_files l1)))|]. split; [exact B'|]. split; [lia|]. split; [congruence|exact L'].
        * destruct IH as (A' & V'). split; [now apply (same_trans l l1)|]. now apply (suffix_trans _ (view n (lg_files l1))).
      + destruct S1 as (A & ->). split; [exact A|apply suffix_refl].
  Qed.
  Lemma rotate_safe : forall ovf l, let n := lg_rotations l in 1 <= n -> n < 2 ^ 64 -> 
    match rotate ovf io l with
    | LOk l' => same_config l l' /\ lg_written l' = 0 /\ suffix (view n (lg_files l')) (view n (lg_files l)) /\ alookup CUR (lg_files l) <> None /\
                (lg_ops l' <= lg_ops l + 2 * n) /\ forall k, alookup k (lg_files l') = rotated n (lg_files l) k
    | LErr l' => same_config l l' /\ suffix (view n (lg_files l')) (view n (lg_files l))
    | LPanic _ => False
    end.
  Proof.
    intros ovf l n N1 Hn. unfold rotate. fold n. replace (ovf && (n =? 0)) with false by lia. rewrite usub_exact by lia.
    assert (SH : forall q, alookup q (lg_files l) = shifted n 0 (lg_files l) q).
    { intros q. unfold shifted. replace ((bak (n - 0) <? q) && (q <=? bak n)) with false by (unfold bak; lia). replace ((q =? bak (n - 0)) && (0 <? 0)) with false by lia. reflexivity. }
    pose proof (shift_safe (N.to_nat (n - 1)) 0 l n (lg_files l) eq_refl Hn ltac:(lia) (or_intror eq_refl) SH) as S1.
    destruct (shift io (N.to_nat (n - 1)) 0 l) as [l1|l1|l1]; cbn [lbind]; [|exact S1|contradiction].
    destruct S1 as (A & W & V & B & O & U & L). replace (0 <? n) with true by lia. unfold rename. destruct (io (lg_ops l1)) eqn:I1.
    - cbn [lbind]. split; [exact A|exact V].
    - destruct (alookup CUR (lg_files l1)) as [c|] eqn:E; cbn [lbind]; [|split; [exact A|exact V]].
      pose proof (first_view n (lg_files l1) c N1 E B) as FV. cbv zeta in FV. unfold create. cbn [op_done set_files lg_ops lg_files].
      assert (V2 : suffix (view n (ainsert (bak 1) c (aremove CUR (lg_files l1)))) (view n (lg_files l))) by (now apply (suffix_trans _ (view n (lg_files l1)))).
      destruct (io (lg_ops l1 + 1)); cbn [lbind op_done set_files set_written lg_files lg_ops lg_written].
      + split; [exact A|exact V2].
      + split; [exact A|]. split; [reflexivity|]. split; [|split; [congruence|split; [lia|]]].
        * assert (X : view n (ainsert CUR [] (ainsert (bak 1) c (aremove CUR (lg_files l1)))) = view n (ainsert (bak 1) c (aremove CUR (lg_files l1)))).
          { unfold view. f_equal.
            - apply backups_ext. intros i Hi. rewrite content_insert. replace (bak (N.of_nat i) =? CUR) with false by (unfold bak, CUR; lia). reflexivity.
            - rewrite !content_insert, content_remove. replace (CUR =? bak 1) with false by reflexivity. rewrite N.eqb_refl. reflexivity. }
          rewrite X. exact V2.
        * intros k. rewrite !alookup_insert, alookup_remove. unfold rotated. destruct (N.eqb_spec k CUR) as [->|NC]; [reflexivity|]. destruct (N.eqb_spec k (bak 1)) as [->|NB]; [congruence|].
          rewrite L. unfold shifted. replace (n - (n - 1)) with 1 by lia. destruct ((bak 1 <? k) && (k <=? bak n)) eqn:Q; [reflexivity|]. replace ((k =? bak 1) && (0 <? n - 1)) with false by lia. reflexivity.
  Qed.
End Io.
