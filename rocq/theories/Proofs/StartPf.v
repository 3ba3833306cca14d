(** The start of the client. *)
From Coq Require Import NArith ZArith ZifyBool ZifyNat ZifyN List Bool Lia.
From Verif.Model Require Import Bytes Text Service Alist SvcTable TableJson Config JsonText Start.
From Verif.Spec Require Import JsonSpec StartSpec.
From Verif.Proofs Require Import BytesFacts JsonPf.
Import ListNotations.
Local Open Scope N_scope.
Local Open Scope list_scope.

Lemma jread_reads aprint uprint : reads_documents aprint uprint jread.
Proof.
  split; [intros; apply dump_jread|]. intros p a x E N0. eapply torn_text; eauto.
Qed.

Lemma put_same f p c : put f p c p = Some c.
Proof. unfold put. now rewrite (proj2 (beq_spec p p) eq_refl). Qed.
Lemma put_other f p c q : q <> p -> put f p c q = f q.
Proof. intros N0. unfold put. destruct (beq q p) eqn:E; [apply beq_spec in E; contradiction|reflexivity]. Qed.
Lemma apply_ops_app f a b : apply_ops f (a ++ b) = apply_ops (apply_ops f a) b.
Proof. apply fold_left_app. Qed.
Lemma untouched q l : forall f, ~ In q (flat_map changes l) -> apply_ops f l q = f q.
Proof.
  induction l as [|o l IH]; intros f N0; [reflexivity|]. cbn [flat_map] in N0. rewrite in_app_iff in N0. cbn [apply_ops fold_left].
  change (apply_ops (apply_op f o) l q = f q). rewrite IH by tauto. destruct o as [p|p|p|p|p c]; cbn [apply_op changes] in *; try reflexivity; try (apply put_other; cbn [In] in N0; intros ->; tauto).
  destruct (f p); [reflexivity|]. apply put_other. cbn [In] in N0. intros ->. tauto.
Qed.
Lemma write_changes p j x q : In q (flat_map changes (write_doc p j x)) -> q = p.
Proof. destruct x; cbn; intros H; try tauto; destruct H as [H|H]; try tauto; congruence. Qed.

Lemma kept q l c : forall f, ~ In q (flat_map replaces l) -> f q = Some c -> apply_ops f l q = Some c.
Proof.
  induction l as [|o l IH]; intros f N0 E; [exact E|]. cbn [flat_map] in N0. rewrite in_app_iff in N0. cbn [apply_ops fold_left].
  apply IH; [tauto|]. destruct o as [p|p|p|p|p d]; cbn [apply_op replaces In] in *; try exact E; try (rewrite put_other; [exact E|intros ->; tauto]).
  destruct (f p) eqn:Ep; [exact E|]. rewrite put_other; [exact E|]. congruence.
Qed.
Lemma replaces_changes q l : In q (flat_map replaces l) -> In q (flat_map changes l).
Proof. rewrite !in_flat_map. intros (o & Ho & Hq). exists o. split; [exact Ho|]. destruct o; cbn in *; tauto. Qed.
Lemma replaces_prefix q l n : In q (flat_map replaces (firstn n l)) -> In q (flat_map replaces l).
Proof. rewrite <- (firstn_skipn n l) at 2. rewrite flat_map_app, in_app_iff. auto. Qed.

Section S.
  Variable hash : ident -> N.
  Variable aprint : saddr -> bytes.
  Variable aparse : bytes -> option saddr.
  Variable uprint : N -> bytes.
  Variable uparse : bytes -> option N.
  Variable jparse : bytes -> option json.
  Notation start := (start hash aprint aparse uprint uparse jparse).
  Notation load_ops := (load_ops aprint aparse uprint uparse jparse).

  Lemma lock_first ph lk services flash f p : ph_lock ph = Some p ->
    (fst (start ph lk services flash f) = [] /\ snd (start ph lk services flash f) = RErr) \/
    (fst (start ph lk services flash f) = [OCreate p] /\ snd (start ph lk services flash f) = RErr) \/
    exists l, fst (start ph lk services flash f) = OCreate p :: OLock p :: l.
  Proof.
    intros E. unfold Start.start, take_lock. rewrite E. destruct (lk_create lk); [|left; auto]. destruct (lk_lock lk); [|right; left; auto]. right. right.
    cbn [negb]. destruct (open_log ph lk) as [o2 ok2]. destruct ok2; cbn [negb]; [|eexists; reflexivity].
    destruct (load_ops ph lk _) as [o3 [p0| |]]; try (eexists; reflexivity). destruct (lk_mac lk); cbn [negb]; [|eexists; reflexivity].
    destruct (build_config hash p0 services flash); eexists; reflexivity.
  Qed.

  Lemma load_changes ph lk f q : In q (flat_map changes (fst (load_ops ph lk f))) -> q = ph_skel ph \/ In q (opt_list (ph_identity ph)).
  Proof.
    unfold Start.load_ops. destruct (read_config aparse uparse jparse (lk_now lk) (f (ph_skel ph))) as [s| |]; cbn [fst]; [| |cbn; tauto].
    all: destruct (read_config aparse uparse jparse (lk_now lk) (f (ph_config ph))) as [r| |]; cbn [fst]; [| |cbn; tauto].
    all: rewrite !flat_map_app, !in_app_iff; intros [H|[H|H]]; [cbn in H; tauto|try (cbn in H; tauto); apply write_changes in H; auto|].
    all: destruct (ph_identity ph) as [i|]; [|cbn in H; tauto]; apply write_changes in H; right; cbn; auto.
  Qed.
  Lemma start_changes ph lk services flash f q : In q (flat_map changes (fst (start ph lk services flash f))) ->
    In q (ph_config ph :: ph_skel ph :: opt_list (ph_identity ph) ++ opt_list (ph_lock ph) ++ opt_list (ph_log ph)).
  Proof.
    cbn [In]. rewrite !in_app_iff. unfold Start.start.
    assert (L : forall q, In q (flat_map changes (fst (take_lock ph lk))) -> In q (opt_list (ph_lock ph))).
    { unfold take_lock. destruct (ph_lock ph); [|cbn; auto]. destruct (lk_create lk); [|cbn; tauto]. destruct (lk_lock lk); cbn; tauto. }
    destruct (take_lock ph lk) as [o1 ok1]. cbn [fst] in L. destruct ok1; cbn [negb]; [|intros H; apply L in H; auto].
    assert (G : forall q, In q (flat_map changes (fst (open_log ph lk))) -> In q (opt_list (ph_log ph))).
    { unfold open_log. destruct (ph_log ph); [|cbn; auto]. destruct (lk_log lk); cbn; tauto. }
    destruct (open_log ph lk) as [o2 ok2]. cbn [fst] in G. destruct ok2; cbn [negb]; [|cbn [fst]; rewrite flat_map_app, in_app_iff; intros [H|H]; [apply L in H|apply G in H]; auto].
    pose proof (load_changes ph lk (apply_ops f (o1 ++ o2))) as D. destruct (load_ops ph lk (apply_ops f (o1 ++ o2))) as [o3 r]. cbn [fst] in D.
    assert (A : In q (flat_map changes (o1 ++ o2 ++ o3)) -> ph_config ph = q \/ ph_skel ph = q \/ In q (opt_list (ph_identity ph)) \/ In q (opt_list (ph_lock ph)) \/ In q (opt_list (ph_log ph))).
    { rewrite !flat_map_app, !in_app_iff. intros [H|[H|H]]; [apply L in H|apply G in H|apply D in H]; intuition. }
    destruct r as [p| |]; cbn [fst]; auto. destruct (lk_mac lk); cbn [negb fst]; auto.
    destruct (build_config hash p services flash) as [c| |]; cbn [fst].
    - intros H. rewrite !flat_map_app, !in_app_iff in H. rewrite !flat_map_app, !in_app_iff in A. destruct H as [H|[H|[H|[H|H]]]]; auto; [cbn in H; tauto|].
      apply write_changes in H. auto.
    - intros H. rewrite !flat_map_app, !in_app_iff in H. rewrite !flat_map_app, !in_app_iff in A. destruct H as [H|[H|[H|H]]]; auto. cbn in H. tauto.
    - intros H. rewrite !flat_map_app, !in_app_iff in H. rewrite !flat_map_app, !in_app_iff in A. destruct H as [H|[H|[H|H]]]; auto. cbn in H. tauto.
  Qed.

  Lemma start_replaces ph lk services flash f q : In q (flat_map replaces (fst (start ph lk services flash f))) ->
    In q (ph_config ph :: ph_skel ph :: opt_list (ph_identity ph) ++ opt_list (ph_lock ph)).
  Proof.
    cbn [In]. rewrite !in_app_iff. unfold Start.start.
    assert (L : forall q, In q (flat_map replaces (fst (take_lock ph lk))) -> In q (opt_list (ph_lock ph))).
    { unfold take_lock. destruct (ph_lock ph); [|cbn; auto]. destruct (lk_create lk); [|cbn; tauto]. destruct (lk_lock lk); cbn; tauto. }
    destruct (take_lock ph lk) as [o1 ok1]. cbn [fst] in L. destruct ok1; cbn [negb]; [|intros H; apply L in H; auto].
    assert (G : forall q, ~ In q (flat_map replaces (fst (open_log ph lk)))).
    { unfold open_log. destruct (ph_log ph); [|cbn; auto]. destruct (lk_log lk); cbn; tauto. }
    destruct (open_log ph lk) as [o2 ok2]. cbn [fst] in G. destruct ok2; cbn [negb]; [|cbn [fst]; rewrite flat_map_app, in_app_iff; intros [H|H]; [apply L in H|apply G in H]; tauto].
    pose proof (load_changes ph lk (apply_ops f (o1 ++ o2))) as D. destruct (load_ops ph lk (apply_ops f (o1 ++ o2))) as [o3 r]. cbn [fst] in D.
    assert (A : In q (flat_map replaces (o1 ++ o2 ++ o3)) -> ph_config ph = q \/ ph_skel ph = q \/ In q (opt_list (ph_identity ph)) \/ In q (opt_list (ph_lock ph))).
    { rewrite !flat_map_app, !in_app_iff. intros [H|[H|H]]; [apply L in H|apply G in H|apply replaces_changes, D in H]; intuition. }
    destruct r as [p| |]; cbn [fst]; auto. destruct (lk_mac lk); cbn [negb fst]; auto.
    destruct (build_config hash p services flash) as [c| |]; cbn [fst].
    - intros H. rewrite !flat_map_app, !in_app_iff in H. rewrite !flat_map_app, !in_app_iff in A. destruct H as [H|[H|[H|[H|H]]]]; auto; [cbn in H; tauto|].
      apply replaces_changes, write_changes in H. auto.
    - intros H. rewrite !flat_map_app, !in_app_iff in H. rewrite !flat_map_app, !in_app_iff in A. destruct H as [H|[H|[H|H]]]; auto. cbn in H. tauto.
    - intros H. rewrite !flat_map_app, !in_app_iff in H. rewrite !flat_map_app, !in_app_iff in A. destruct H as [H|[H|[H|H]]]; auto. cbn in H. tauto.
  Qed.
  Lemma files_kept ph lk services flash f q c n : f q = Some c ->
    ~ In q (ph_config ph :: ph_skel ph :: opt_list (ph_identity ph) ++ opt_list (ph_lock ph)) ->
    apply_ops f (firstn n (fst (start ph lk services flash f))) q = Some c.
  Proof. intros E N0. apply kept; [|exact E]. intros H. apply N0. apply replaces_prefix in H. eapply start_replaces; exact H. Qed.

  Lemma started_saved ph lk services flash f c : snd (start ph lk services flash f) = ROk c ->
    exists t, g_heap c = [t] /\ g_cur c = O /\
      apply_ops f (fst (start ph lk services flash f)) (ph_config ph) = Some (jdump (pconfig_to_json aprint uprint (to_persistent c t))).
  Proof.
    unfold Start.start. destruct (take_lock ph lk) as [o1 ok1]. destruct ok1; cbn [negb snd]; [|discriminate].
    destruct (open_log ph lk) as [o2 ok2]. destruct ok2; cbn [negb snd]; [|discriminate].
    destruct (load_ops ph lk _) as [o3 [p| |]]; cbn [snd]; try discriminate. destruct (lk_mac lk); cbn [negb snd]; [|discriminate].
    destruct (build_config hash p services flash) as [c0| |] eqn:B; cbn [snd]; try discriminate. destruct (lk_save lk); try discriminate. intros E. injection E as <-.
    unfold build_config in B. destruct (add_static_all hash (p_table p) services) as [t| |]; try discriminate. injection B as <-. exists t. do 2 (split; [reflexivity|]).
    cbn [fst]. rewrite !app_assoc. rewrite apply_ops_app. cbn [write_doc apply_ops fold_left apply_op g_heap nth]. apply put_same.
  Qed.

  Lemma started_identity ph lk services flash f c q : snd (start ph lk services flash f) = ROk c ->
    ph_identity ph = Some q -> q <> ph_config ph -> lk_ident lk = FAll ->
    apply_ops f (fst (start ph lk services flash f)) q = Some (jdump (identity_doc uprint (g_uuid c))).
  Proof.
    intros S I N0 W. revert S. unfold Start.start. destruct (take_lock ph lk) as [o1 ok1]. destruct ok1; cbn [negb snd]; [|discriminate].
    destruct (open_log ph lk) as [o2 ok2]. destruct ok2; cbn [negb snd]; [|discriminate].
    set (f1 := apply_ops f (o1 ++ o2)).
    assert (D : forall o3 p g, load_ops ph lk f1 = (o3, ROk p) -> apply_ops g o3 q = Some (jdump (identity_doc uprint (p_uuid p)))).
    { unfold Start.load_ops. rewrite I, W. cbn [write_doc]. intros o3 p g.
      destruct (read_config aparse uparse jparse (lk_now lk) (f1 (ph_skel ph))) as [s| |]; try (intros; discriminate).
      all: destruct (read_config aparse uparse jparse (lk_now lk) (f1 (ph_config ph))) as [r| |]; try (intros; discriminate).
      all: intros E; injection E as <- <-; try (destruct (lk_skel lk)); cbn [app write_doc apply_ops fold_left apply_op]; apply put_same. }
    destruct (load_ops ph lk f1) as [o3 [p| |]]; cbn [snd]; try discriminate. specialize (D o3 p). destruct (lk_mac lk); cbn [negb snd]; [|discriminate].
    destruct (build_config hash p services flash) as [c0| |] eqn:B; cbn [snd]; try discriminate. destruct (lk_save lk); try discriminate. intros E. injection E as <-.
    assert (U : g_uuid c0 = p_uuid p). { unfold build_config in B. destruct (add_static_all hash (p_table p) services); try discriminate. injection B as <-. reflexivity. }
    rewrite U. cbn [fst]. rewrite (app_assoc o1), (apply_ops_app f (o1 ++ o2)), apply_ops_app. rewrite untouched; [apply D; reflexivity|].
    cbn. intros [H|H]; [congruence|exact H].
  Qed.

  Lemma started_skeleton ph lk services flash f c : distinct_paths ph -> snd (start ph lk services flash f) = ROk c ->
    match read_config aparse uparse jparse (lk_now lk) (f (ph_skel ph)) with
    | ROk _ => apply_ops f (fst (start ph lk services flash f)) (ph_skel ph) = f (ph_skel ph)
    | RErr => lk_skel lk = FAll ->
        apply_ops f (fst (start ph lk services flash f)) (ph_skel ph) = Some (jdump (skeleton_doc uprint (g_uuid c) (g_passwd c)))
    | RPanic => False
    end.
  Proof.
    intros DP S. unfold distinct_paths in DP. inversion_clear DP as [|? ? D1 D2]. inversion_clear D2 as [|? ? D3 D4]. cbn [In] in D1. rewrite !in_app_iff in D1, D3.
    revert S. unfold Start.start.
    assert (L : forall q, In q (flat_map changes (fst (take_lock ph lk))) -> In q (opt_list (ph_lock ph))).
    { unfold take_lock. destruct (ph_lock ph); [|cbn; auto]. destruct (lk_create lk); [|cbn; tauto]. destruct (lk_lock lk); cbn; tauto. }
    destruct (take_lock ph lk) as [o1 ok1]. cbn [fst] in L. destruct ok1; cbn [negb snd]; [|discriminate].
    assert (G : forall q, In q (flat_map changes (fst (open_log ph lk))) -> In q (opt_list (ph_log ph))).
    { unfold open_log. destruct (ph_log ph); [|cbn; auto]. destruct (lk_log lk); cbn; tauto. }
    destruct (open_log ph lk) as [o2 ok2]. cbn [fst] in G. destruct ok2; cbn [negb snd]; [|discriminate].
    set (f1 := apply_ops f (o1 ++ o2)).
    assert (F1 : f1 (ph_skel ph) = f (ph_skel ph)).
    { apply untouched. rewrite flat_map_app, in_app_iff. intros [H|H]; [apply L in H|apply G in H]; tauto. }
    rewrite <- F1.
    assert (D : forall o3 p g, load_ops ph lk f1 = (o3, ROk p) ->
      match read_config aparse uparse jparse (lk_now lk) (f1 (ph_skel ph)) with
      | ROk _ => apply_ops g o3 (ph_skel ph) = g (ph_skel ph)
      | RErr => lk_skel lk = FAll -> apply_ops g o3 (ph_skel ph) = Some (jdump (skeleton_doc uprint (p_uuid p) (p_passwd p)))
      | RPanic => False
      end).
    { assert (ID : forall g j, apply_ops g match ph_identity ph with Some q => write_doc q (identity_doc uprint j) (lk_ident lk) | None => [] end (ph_skel ph) = g (ph_skel ph)).
      { intros g j. apply untouched. destruct (ph_identity ph) as [i|]; [|exact (fun H => H)]. intros H. apply write_changes in H. apply D3. left. cbn. auto. }
      unfold Start.load_ops. intros o3 p g.
      destruct (read_config aparse uparse jparse (lk_now lk) (f1 (ph_skel ph))) as [s| |]; try (intros; discriminate).
      - destruct (read_config aparse uparse jparse (lk_now lk) (f1 (ph_config ph))) as [r| |]; try (intros; discriminate).
        all: intros E; pose proof (f_equal fst E) as E1; cbn [fst] in E1; rewrite <- E1, !apply_ops_app, ID; reflexivity.
      - intros E W. rewrite W in E.
        destruct (read_config aparse uparse jparse (lk_now lk) (f1 (ph_config ph))) as [r| |]; try discriminate.
        all: pose proof (f_equal fst E) as E1; pose proof (f_equal snd E) as E2; cbn [fst snd] in E1, E2; injection E2 as <-; rewrite <- E1, !apply_ops_app, ID; cbn [write_doc apply_ops fold_left apply_op]; rewrite put_same; reflexivity. }
    destruct (load_ops ph lk f1) as [o3 [p| |]]; cbn [snd]; try discriminate. specialize (D o3 p). destruct (lk_mac lk); cbn [negb snd]; [|discriminate].
    destruct (build_config hash p services flash) as [c0| |] eqn:B; cbn [snd]; try discriminate. destruct (lk_save lk); try discriminate. intros E. injection E as <-.
    assert (U : g_uuid c0 = p_uuid p /\ g_passwd c0 = p_passwd p).
    { unfold build_config in B. destruct (add_static_all hash (p_table p) services); try discriminate. injection B as <-. split; reflexivity. }
    destruct U as [-> ->]. cbn [fst].
    assert (X : forall g, apply_ops f (o1 ++ o2 ++ o3 ++ [ORead (ph_rtsp ph); ORead (ph_mjpeg ph)] ++ write_doc (ph_config ph) g FAll) (ph_skel ph) = apply_ops f1 o3 (ph_skel ph)).
    { intros g. rewrite (app_assoc o1), (apply_ops_app f (o1 ++ o2)), apply_ops_app. apply untouched. cbn. intros [H|H]; [apply D1; auto|exact H]. }
    rewrite X. specialize (D f1 eq_refl). destruct (read_config aparse uparse jparse (lk_now lk) (f1 (ph_skel ph))); exact D.
  Qed.

  Lemma cut_prefix d n : d <> [] -> exists x, d = cut d n ++ x /\ x <> [].
  Proof.
    intros N0. exists (skipn (Nat.min n (length d - 1)) d). split; [symmetry; apply firstn_skipn|]. intros E. apply (f_equal (@length _)) in E. rewrite skipn_length in E.
    destruct d; [congruence|]. cbn [length] in E. lia.
  Qed.

  Section Seen.
    Hypothesis R : reads_documents aprint uprint jparse.
    Lemma seen_write f p j x pc : j = pconfig_to_json aprint uprint pc ->
      bind (apply_ops f (write_doc p j x) p) jparse = write_file aprint uprint (bind (f p) jparse) pc (seen_fate x).
    Proof.
      intros ->. destruct R as [R1 R2]. destruct x as [| |n]; cbn [write_doc apply_ops fold_left apply_op seen_fate write_file]; [| reflexivity |].
      - rewrite put_same. cbn [bind]. apply R1.
      - rewrite put_same. cbn [bind]. destruct (cut_prefix (jdump (pconfig_to_json aprint uprint pc)) n) as [x [X Y]]; [apply dump_some|]. eapply R2; eauto.
    Qed.

    (** The start as [Config.v] describes it *)
    Lemma start_seen ph lk services flash f :
      distinct_paths ph -> lk_mac lk = true -> snd (take_lock ph lk) = true -> snd (open_log ph lk) = true ->
      world_step hash aprint aparse uprint uparse true flash (seen_files jparse ph f None)
        (WStart (lk_fresh lk) (lk_now lk) (seen_fate (lk_skel lk)) false services (seen_fate (lk_save lk))) =
      (seen_files jparse ph (apply_ops f (fst (start ph lk services flash f)))
         (match snd (start ph lk services flash f) with ROk c => Some c | _ => None end),
       match snd (start ph lk services flash f) with ROk c => Some (g_uuid c, g_passwd c) | _ => None end).
    Proof.
      intros D M TL OL.
      assert (NC : forall q, In q (opt_list (ph_identity ph) ++ opt_list (ph_lock ph) ++ opt_list (ph_log ph)) -> q <> ph_config ph /\ q <> ph_skel ph).
      { unfold distinct_paths in D. inversion_clear D as [|? ? D1 D2]. inversion_clear D2 as [|? ? D3 D4]. intros q Q. split; intros ->; [apply D1|apply D3]; cbn; auto. }
      assert (CS : ph_config ph <> ph_skel ph). { unfold distinct_paths in D. inversion_clear D as [|? ? D1 D2]. intros E. apply D1. rewrite E. cbn. auto. }
      clear D. unfold Start.start.
      assert (L : forall q, In q (flat_map changes (fst (take_lock ph lk))) -> In q (opt_list (ph_lock ph))).
      { unfold take_lock. destruct (ph_lock ph); [|cbn; auto]. destruct (lk_create lk); [|cbn; tauto]. destruct (lk_lock lk); cbn; tauto. }
      destruct (take_lock ph lk) as [o1 ok1]. cbn [fst snd] in *. subst ok1. cbn [negb].
      assert (G : forall q, In q (flat_map changes (fst (open_log ph lk))) -> In q (opt_list (ph_log ph))).
      { unfold open_log. destruct (ph_log ph); [|cbn; auto]. destruct (lk_log lk); cbn; tauto. }
      destruct (open_log ph lk) as [o2 ok2]. cbn [fst snd] in *. subst ok2. cbn [negb].
      set (f1 := apply_ops f (o1 ++ o2)).
      assert (F1 : forall q, q = ph_config ph \/ q = ph_skel ph -> f1 q = f q).
      { intros q Q. apply untouched. rewrite flat_map_app, in_app_iff. intros [H|H]; [apply L in H|apply G in H];
          (destruct (NC q); [rewrite !in_app_iff; auto|]); destruct Q; contradiction. }
      rewrite M. cbn [negb].
      assert (OA : forall o, o1 ++ o2 ++ o = (o1 ++ o2) ++ o) by (intros; apply app_assoc).
      unfold world_step. cbn [w_app seen_files w_config w_skel].
      rewrite <- !F1 by auto.
      (* loading *)
      assert (LD : exists o3 r, load_ops ph lk f1 = (o3, r) /\
        match r with
        | ROk p => load_configuration aprint aparse uprint uparse (lk_now lk) true (bind (f1 (ph_config ph)) jparse) (bind (f1 (ph_skel ph)) jparse) (lk_fresh lk) (seen_fate (lk_skel lk)) =
                   ROk (p, bind (apply_ops f1 o3 (ph_skel ph)) jparse)
        | RErr => False
        | RPanic => load_configuration aprint aparse uprint uparse (lk_now lk) true (bind (f1 (ph_config ph)) jparse) (bind (f1 (ph_skel ph)) jparse) (lk_fresh lk) (seen_fate (lk_skel lk)) = RPanic /\
                    flat_map changes o3 = []
        end /\ apply_ops f1 o3 (ph_config ph) = f1 (ph_config ph)).
      { destruct (load_ops ph lk f1) as [o3 r] eqn:LO. exists o3, r. split; [reflexivity|]. split.
        2:{ apply untouched. intros H. pose proof (load_changes ph lk f1 (ph_config ph)) as X. rewrite LO in X. specialize (X H). destruct X as [X|X]; [contradiction|].
            destruct (NC (ph_config ph)); [rewrite in_app_iff; auto|congruence]. }
        revert LO. unfold Start.load_ops, load_configuration, read_config.
        set (sk := load_file aparse uparse (lk_now lk) (bind (f1 (ph_skel ph)) jparse)). set (cf := load_file aparse uparse (lk_now lk) (bind (f1 (ph_config ph)) jparse)).
        assert (ID : forall g p0, apply_ops g (match ph_identity ph with Some q => write_doc q (identity_doc uprint p0) (lk_ident lk) | None => [] end) (ph_skel ph) = g (ph_skel ph)).
        { intros g p0. apply untouched. destruct (ph_identity ph) as [i|] eqn:EI; [|cbn; tauto]. intros H. apply write_changes in H. destruct (NC i); [cbn; auto|congruence]. }
        destruct sk as [s| |] eqn:ES; [| |intros E; injection E as <- <-; split; reflexivity].
        all: destruct cf as [r0| |] eqn:EC; [| |intros E; injection E as <- <-; split; reflexivity].
        all: intros E; injection E as <- <-; match goal with |- context [apply_ops ?g (ORead ?a :: ORead ?b :: ?l)] => change (apply_ops g (ORead a :: ORead b :: l)) with (apply_ops g l) end; rewrite ?apply_ops_app, ID.
        all: try reflexivity.
        all: erewrite seen_write by reflexivity; reflexivity. }
      destruct LD as [o3 [r [LO [LR LC]]]]. rewrite LO. destruct r as [p| |]; [|contradiction|].
      2:{ destruct LR as [LR NC0]. rewrite LR. cbn [fst snd]. unfold seen_files. rewrite OA, apply_ops_app. fold f1. rewrite !untouched by (rewrite NC0; cbn; tauto).
          rewrite <- !F1 by auto. reflexivity. }
      rewrite LR. cbv zeta.
      assert (O4 : forall g l q, apply_ops g (o3 ++ [ORead (ph_rtsp ph); ORead (ph_mjpeg ph)] ++ l) q = apply_ops (apply_ops g o3) l q).
      { intros g l q. now rewrite !apply_ops_app. }
      destruct (build_config hash p services flash) as [c| |]; cbn [fst snd].
      - unfold seen_files. rewrite !OA, !(apply_ops_app f (o1 ++ o2)). fold f1. rewrite !O4.
        set (j := pconfig_to_json aprint uprint (to_persistent c (nth O (g_heap c) (table_new (lk_now lk))))).
        rewrite (untouched (ph_skel ph) (write_doc (ph_config ph) j (lk_save lk))) by (intros H; apply write_changes in H; congruence).
        erewrite (seen_write _ _ j) by reflexivity. rewrite LC. destruct (lk_save lk); reflexivity.
      - unfold seen_files. rewrite !OA, !(apply_ops_app f (o1 ++ o2)). fold f1. change [ORead (ph_rtsp ph); ORead (ph_mjpeg ph)] with ([ORead (ph_rtsp ph); ORead (ph_mjpeg ph)] ++ []). rewrite !O4.
        cbn [apply_ops fold_left]. rewrite LC. reflexivity.
      - unfold seen_files. rewrite !OA, !(apply_ops_app f (o1 ++ o2)). fold f1. change [ORead (ph_rtsp ph); ORead (ph_mjpeg ph)] with ([ORead (ph_rtsp ph); ORead (ph_mjpeg ph)] ++ []). rewrite !O4.
        cbn [apply_ops fold_left]. rewrite LC. reflexivity.
    Qed.
  End Seen.
End S.
