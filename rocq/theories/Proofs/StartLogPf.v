(** The log of a start. *)
From Coq Require Import String NArith ZArith List Bool Lia.
From Verif.Model Require Import Bytes Text Service Alist SvcTable TableJson Config JsonText Mac Storage Start Logger Journal ScanLog StartLog.
From Verif.Spec Require Import StartSpec StartLogSpec.
From Verif.Proofs Require Import BytesFacts StartPf.
Import ListNotations.
Local Open Scope N_scope.
Local Open Scope list_scope.

Lemma or_log {A : Type} sev msg (r : A + bytes) :
  result_or_log sev msg r = match r with inl a => (Some a, []) | inr err => (None, [say sev [msg; lit " ("%string; err; lit ")"%string]]) end.
Proof. destruct r; reflexivity. Qed.

Ltac text := unfold say, named; cbn [List.concat]; rewrite ?app_nil_r, <- ?app_assoc; reflexivity.
Lemma say_skel ph tx : say WARN [named (lit "unable to read configuration file skeleton"%string) (ph_skel ph); lit " ("%string; tx_skel tx; lit ")"%string] = unread_skeleton ph tx.
Proof. text. Qed.
Lemma say_config ph tx : say WARN [named (lit "unable to read configuration file"%string) (ph_config ph); lit " ("%string; tx_config tx; lit ")"%string] = unread_config ph tx.
Proof. text. Qed.
Lemma say_create ph tx : say WARN [named (lit "unable to create configuration file skeleton"%string) (ph_skel ph); lit " ("%string; tx_create tx; lit ")"%string] = uncreated_skeleton ph tx.
Proof. text. Qed.
Lemma say_ident q tx : say WARN [named (lit "unable to create identity file"%string) q; lit " ("%string; tx_ident tx; lit ")"%string] = uncreated_identity q tx.
Proof. text. Qed.
Lemma say_new ph : say INFO [named (lit "creating configuration file skeleton"%string) (ph_skel ph)] = new_skeleton ph.
Proof. text. Qed.
Lemma say_started uprint u mac : started_rec uprint u mac = is_started uprint u (mac_print mac).
Proof. unfold started_rec. text. Qed.

Section StartLog.
  Variable hash : ident -> N.
  Variable aprint : saddr -> bytes.
  Variable aparse : bytes -> option saddr.
  Variable uprint : N -> bytes.
  Variable uparse : bytes -> option N.
  Variable jparse : bytes -> option json.
  Notation rd := (read_config aparse uparse jparse).
  Notation start := (start hash aprint aparse uprint uparse jparse).
  Notation start_log := (start_log hash aprint aparse uprint uparse jparse).
  Notation load_ops := (load_ops aprint aparse uprint uparse jparse).
  Notation load_log := (load_log aparse uparse jparse).

  (** Lock and log leave the other files alone. *)
  Lemma before_load ph lk f q : ~ In q (opt_list (ph_lock ph) ++ opt_list (ph_log ph)) ->
    apply_ops f (fst (take_lock ph lk) ++ fst (open_log ph lk)) q = f q.
  Proof.
    intros H. apply untouched. rewrite flat_map_app, in_app_iff. rewrite in_app_iff in H. intros [X|X]; apply H.
    - left. revert X. unfold take_lock. destruct (ph_lock ph); [|cbn; auto]. destruct (lk_create lk); [|cbn; tauto]. destruct (lk_lock lk); cbn; tauto.
    - right. revert X. unfold open_log. destruct (ph_log ph); [|cbn; auto]. destruct (lk_log lk); cbn; tauto.
  Qed.

  (** The log of loading *)
  Definition load_records (ph : paths) (lk : luck) (tx : texts) (s r : result pconfig) : list jrec :=
    match s with ROk _ => [] | _ => [unread_skeleton ph tx] end ++
    match r with ROk _ => [] | _ => [unread_config ph tx] end ++
    match s with ROk _ => [] | _ => new_skeleton ph :: match lk_skel lk with FAll => [] | _ => [uncreated_skeleton ph tx] end end ++
    match ph_identity ph with Some q => match lk_ident lk with FAll => [] | _ => [uncreated_identity q tx] end | None => [] end.

  Lemma load_log_is ph lk tx f : rd (lk_now lk) (f (ph_skel ph)) <> RPanic -> rd (lk_now lk) (f (ph_config ph)) <> RPanic ->
    load_log ph lk tx f = load_records ph lk tx (rd (lk_now lk) (f (ph_skel ph))) (rd (lk_now lk) (f (ph_config ph))).
  Proof.
    intros N1 N2. unfold StartLog.load_log, load_records, loaded, saved.
    destruct (rd (lk_now lk) (f (ph_skel ph))) as [s| |]; [| |contradiction];
      (destruct (rd (lk_now lk) (f (ph_config ph))) as [r| |]; [| |contradiction]); rewrite ?or_log; cbn [app snd];
      rewrite ?say_skel, ?say_config, ?say_new; repeat f_equal;
      (destruct (ph_identity ph); [destruct (lk_ident lk)|]); destruct (lk_skel lk); rewrite ?or_log; cbn [snd app]; rewrite ?say_create, ?say_ident; reflexivity.
  Qed.

  (** The configuration that is loaded *)
  Definition loaded_from (lk : luck) (s r : result pconfig) : pconfig :=
    match r, s with
    | ROk p, _ => p
    | _, ROk p => p
    | _, _ => {| p_uuid := fst (lk_fresh lk); p_passwd := snd (lk_fresh lk); p_version := 0; p_table := table_new (lk_now lk) |}
    end.
  Lemma load_result ph lk f o res : load_ops ph lk f = (o, res) ->
    let s := rd (lk_now lk) (f (ph_skel ph)) in let r := rd (lk_now lk) (f (ph_config ph)) in
    match res with
    | ROk p => s <> RPanic /\ r <> RPanic /\ p = loaded_from lk s r
    | RPanic => s = RPanic \/ r = RPanic
    | RErr => False
    end.
  Proof.
    cbv zeta. unfold Start.load_ops, loaded_from. destruct (rd (lk_now lk) (f (ph_skel ph))) as [s| |].
    3: { intros E. injection E as _ <-. auto. }
    all: destruct (rd (lk_now lk) (f (ph_config ph))) as [r| |]; intros E; pose proof (f_equal snd E) as E2; cbn [snd] in E2; subst res;
      repeat split; try discriminate; auto.
  Qed.

  Lemma path_log_is what d err : path_log (lit "unable to load "%string ++ what ++ lit " paths"%string) d err =
    match load_paths_file d with Some _ => [] | None => [no_paths what err] end.
  Proof.
    unfold path_log. rewrite or_log. destruct (load_paths_file d); [reflexivity|]. cbn [snd]. f_equal. unfold no_paths, say. cbn [List.concat].
    rewrite app_nil_r, <- !app_assoc. reflexivity.
  Qed.

  (** A path file that is no file of the client has not been changed. *)
  Lemma paths_kept ph lk f q : ~ In q (own_files ph) ->
    apply_ops (apply_ops f (fst (take_lock ph lk) ++ fst (open_log ph lk))) (fst (load_ops ph lk (apply_ops f (fst (take_lock ph lk) ++ fst (open_log ph lk))))) q = f q.
  Proof.
    intros H. unfold own_files in H. cbn [In] in H. rewrite untouched.
    - apply before_load. intros X. apply H. right. right. apply in_or_app. right. exact X.
    - intros X. apply load_changes in X as [X|X]; apply H; [right; left; auto|]. right. right. apply in_or_app. left. exact X.
  Qed.

  Lemma records ph lk tx mac services flash f c : distinct_paths ph -> ~ In (ph_rtsp ph) (own_files ph) -> ~ In (ph_mjpeg ph) (own_files ph) ->
    snd (start ph lk services flash f) = ROk c ->
    let s := rd (lk_now lk) (f (ph_skel ph)) in let r := rd (lk_now lk) (f (ph_config ph)) in
    start_log ph lk tx mac services flash f =
      load_records ph lk tx s r ++
      match load_paths_file (f (ph_rtsp ph)) with Some _ => [] | None => [no_paths (lit "RTSP"%string) (tx_rtsp tx)] end ++
      match load_paths_file (f (ph_mjpeg ph)) with Some _ => [] | None => [no_paths (lit "MJPEG"%string) (tx_mjpeg tx)] end ++
      [is_started uprint (g_uuid c) (mac_print mac)] /\
    s <> RPanic /\ r <> RPanic /\ g_uuid c = p_uuid (loaded_from lk s r) /\ g_passwd c = p_passwd (loaded_from lk s r).
  Proof.
    intros DP R1 R2 S. cbv zeta.
    unfold distinct_paths in DP. inversion_clear DP as [|? ? D1 D2]. inversion_clear D2 as [|? ? D3 D4]. cbn [In] in D1. rewrite !in_app_iff in D1, D3.
    assert (Fs : apply_ops f (fst (take_lock ph lk) ++ fst (open_log ph lk)) (ph_skel ph) = f (ph_skel ph)) by (apply before_load; rewrite in_app_iff; tauto).
    assert (Fc : apply_ops f (fst (take_lock ph lk) ++ fst (open_log ph lk)) (ph_config ph) = f (ph_config ph)) by (apply before_load; rewrite in_app_iff; tauto).
    pose proof (paths_kept ph lk f _ R1) as P1. pose proof (paths_kept ph lk f _ R2) as P2.
    revert S. unfold Start.start, StartLog.start_log.
    destruct (take_lock ph lk) as [o1 ok1]. destruct ok1; cbn [negb snd]; [|discriminate].
    destruct (open_log ph lk) as [o2 ok2]. destruct ok2; cbn [negb snd]; [|discriminate]. cbn [fst] in *.
    set (f1 := apply_ops f (o1 ++ o2)) in *.
    destruct (load_ops ph lk f1) as [o3 res] eqn:L. cbn [fst] in P1, P2. pose proof (load_result ph lk f1 o3 res L) as LR. cbv zeta in LR.
    rewrite Fs, Fc in LR.
    destruct res as [p| |]; cbn [snd]; try discriminate. destruct LR as (N1 & N2 & ->).
    destruct (lk_mac lk); cbn [negb snd]; [|discriminate].
    destruct (build_config hash _ services flash) as [c0| |] eqn:B; cbn [snd]; try discriminate. destruct (lk_save lk) eqn:SV; try discriminate. intros E. injection E as ->.
    rewrite load_log_is by (rewrite ?Fs, ?Fc; assumption). rewrite Fs, Fc, P1, P2.
    change (lit "unable to load RTSP paths"%string) with (lit "unable to load "%string ++ lit "RTSP"%string ++ lit " paths"%string).
    change (lit "unable to load MJPEG paths"%string) with (lit "unable to load "%string ++ lit "MJPEG"%string ++ lit " paths"%string).
    rewrite !path_log_is, say_started, <- !app_assoc. split; [reflexivity|]. split; [exact N1|]. split; [exact N2|].
    unfold build_config in B. destruct (add_static_all hash _ services); try discriminate. injection B as <-. split; reflexivity.
  Qed.

  (** A start that fails *)
  Lemma failed_records ph lk tx mac services flash f : distinct_paths ph -> ~ In (ph_rtsp ph) (own_files ph) -> ~ In (ph_mjpeg ph) (own_files ph) ->
    (forall c, snd (start ph lk services flash f) <> ROk c) ->
    let s := rd (lk_now lk) (f (ph_skel ph)) in let r := rd (lk_now lk) (f (ph_config ph)) in
    start_log ph lk tx mac services flash f =
      if gets_lock ph lk && gets_log ph lk then
        match s, r with
        | RPanic, _ => []
        | ROk _, RPanic => []
        | RErr, RPanic => [unread_skeleton ph tx]
        | _, _ =>
          load_records ph lk tx s r ++
          if lk_mac lk then
            match load_paths_file (f (ph_rtsp ph)) with Some _ => [] | None => [no_paths (lit "RTSP"%string) (tx_rtsp tx)] end ++
            match load_paths_file (f (ph_mjpeg ph)) with Some _ => [] | None => [no_paths (lit "MJPEG"%string) (tx_mjpeg tx)] end
          else []
        end
      else [].
  Proof.
    intros DP R1 R2 S. cbv zeta.
    unfold distinct_paths in DP. inversion_clear DP as [|? ? D1 D2]. inversion_clear D2 as [|? ? D3 D4]. cbn [In] in D1. rewrite !in_app_iff in D1, D3.
    assert (Fs : apply_ops f (fst (take_lock ph lk) ++ fst (open_log ph lk)) (ph_skel ph) = f (ph_skel ph)) by (apply before_load; rewrite in_app_iff; tauto).
    assert (Fc : apply_ops f (fst (take_lock ph lk) ++ fst (open_log ph lk)) (ph_config ph) = f (ph_config ph)) by (apply before_load; rewrite in_app_iff; tauto).
    pose proof (paths_kept ph lk f _ R1) as P1. pose proof (paths_kept ph lk f _ R2) as P2.
    assert (G1 : snd (take_lock ph lk) = gets_lock ph lk).
    { unfold take_lock, gets_lock. destruct (ph_lock ph); [|reflexivity]. destruct (lk_create lk), (lk_lock lk); reflexivity. }
    assert (G2 : snd (open_log ph lk) = gets_log ph lk).
    { unfold open_log, gets_log. destruct (ph_log ph); [|reflexivity]. destruct (lk_log lk); reflexivity. }
    revert S. unfold Start.start, StartLog.start_log.
    destruct (take_lock ph lk) as [o1 ok1]. cbn [snd] in G1. subst ok1. destruct (gets_lock ph lk); cbn [negb snd andb]; [|reflexivity].
    destruct (open_log ph lk) as [o2 ok2]. cbn [snd] in G2. subst ok2. destruct (gets_log ph lk); cbn [negb snd]; [|reflexivity]. cbn [fst] in *.
    set (f1 := apply_ops f (o1 ++ o2)) in *.
    destruct (load_ops ph lk f1) as [o3 res] eqn:L. cbn [fst] in P1, P2. pose proof (load_result ph lk f1 o3 res L) as LR. cbv zeta in LR.
    rewrite Fs, Fc in LR.
    destruct res as [p| |]; [|contradiction|].
    - destruct LR as (N1 & N2 & ->). intros S. rewrite load_log_is by (rewrite ?Fs, ?Fc; assumption). rewrite Fs, Fc, P1, P2.
      change (lit "unable to load RTSP paths"%string) with (lit "unable to load "%string ++ lit "RTSP"%string ++ lit " paths"%string).
      change (lit "unable to load MJPEG paths"%string) with (lit "unable to load "%string ++ lit "MJPEG"%string ++ lit " paths"%string).
      rewrite !path_log_is.
      assert (X : forall a b : list jrec, match rd (lk_now lk) (f (ph_skel ph)), rd (lk_now lk) (f (ph_config ph)) with
         | RPanic, _ => [] | ROk _, RPanic => [] | RErr, RPanic => a | _, _ => b end = b).
      { intros a b. destruct (rd (lk_now lk) (f (ph_skel ph))); [| |contradiction]; (destruct (rd (lk_now lk) (f (ph_config ph))); [reflexivity|reflexivity|contradiction]). }
      rewrite X. destruct (lk_mac lk); cbn [negb]; [|now rewrite app_nil_r]. cbn [negb] in S.
      destruct (build_config hash _ services flash) as [c0| |] eqn:B; try reflexivity. destruct (lk_save lk) eqn:SV; [exfalso; exact (S c0 eq_refl)| |]; now rewrite !app_nil_r.
    - intros _. unfold StartLog.load_log. rewrite Fs, Fc. unfold loaded.
      destruct (rd (lk_now lk) (f (ph_skel ph))) as [s| |]; [| |reflexivity]; destruct LR as [LR|LR]; try discriminate; rewrite LR; rewrite or_log; [reflexivity|].
      now rewrite say_skel.
  Qed.

  Lemma identity_told ph lk tx mac services flash f c : distinct_paths ph -> ~ In (ph_rtsp ph) (own_files ph) -> ~ In (ph_mjpeg ph) (own_files ph) ->
    snd (start ph lk services flash f) = ROk c -> let l := start_log ph lk tx mac services flash f in
    match rd (lk_now lk) (f (ph_config ph)), rd (lk_now lk) (f (ph_skel ph)) with
    | ROk p, _ => g_uuid c = p_uuid p /\ g_passwd c = p_passwd p
    | RErr, ROk p => g_uuid c = p_uuid p /\ g_passwd c = p_passwd p /\ In (unread_config ph tx) l
    | RErr, RErr => (g_uuid c, g_passwd c) = lk_fresh lk /\ In (unread_config ph tx) l /\ In (unread_skeleton ph tx) l /\ In (new_skeleton ph) l
    | _, _ => False
    end.
  Proof.
    intros DP R1 R2 S. cbv zeta. destruct (records ph lk tx mac services flash f c DP R1 R2 S) as (-> & N1 & N2 & U & P). revert U P.
    unfold load_records, loaded_from.
    destruct (rd (lk_now lk) (f (ph_config ph))) as [r| |]; [auto| |contradiction].
    destruct (rd (lk_now lk) (f (ph_skel ph))) as [s| |]; [| |contradiction]; cbn [p_uuid p_passwd]; intros -> ->.
    - split; [reflexivity|]. split; [reflexivity|]. cbn [app]. now left.
    - split; [now destruct (lk_fresh lk)|]. cbn [app In]. auto 6.
  Qed.

  Lemma no_password ph lk tx mac services flash f g x : distinct_paths ph -> ~ In (ph_rtsp ph) (own_files ph) -> ~ In (ph_mjpeg ph) (own_files ph) ->
    same_but_password (rd (lk_now lk) (f (ph_config ph))) (rd (lk_now lk) (g (ph_config ph))) ->
    same_but_password (rd (lk_now lk) (f (ph_skel ph))) (rd (lk_now lk) (g (ph_skel ph))) ->
    f (ph_rtsp ph) = g (ph_rtsp ph) -> f (ph_mjpeg ph) = g (ph_mjpeg ph) ->
    start_log ph lk tx mac services flash f = start_log ph (with_password lk x) tx mac services flash g.
  Proof.
    intros DP R1 R2 SC SS E1 E2.
    unfold distinct_paths in DP. inversion_clear DP as [|? ? D1 D2]. inversion_clear D2 as [|? ? D3 D4]. cbn [In] in D1. rewrite !in_app_iff in D1, D3.
    assert (FS : forall f, apply_ops f (fst (take_lock ph lk) ++ fst (open_log ph lk)) (ph_skel ph) = f (ph_skel ph)) by (intros; apply before_load; rewrite in_app_iff; tauto).
    assert (FC : forall f, apply_ops f (fst (take_lock ph lk) ++ fst (open_log ph lk)) (ph_config ph) = f (ph_config ph)) by (intros; apply before_load; rewrite in_app_iff; tauto).
    pose proof (paths_kept ph lk f _ R1) as P1. pose proof (paths_kept ph lk f _ R2) as P2.
    pose proof (paths_kept ph (with_password lk x) g _ R1) as P3. pose proof (paths_kept ph (with_password lk x) g _ R2) as P4.
    unfold StartLog.start_log.
    change (take_lock ph (with_password lk x)) with (take_lock ph lk) in *. change (open_log ph (with_password lk x)) with (open_log ph lk) in *.
    destruct (take_lock ph lk) as [o1 ok1]. destruct ok1; cbn [negb]; [|reflexivity].
    destruct (open_log ph lk) as [o2 ok2]. destruct ok2; cbn [negb]; [|reflexivity]. cbn [fst] in *.
    set (f1 := apply_ops f (o1 ++ o2)) in *. set (g1 := apply_ops g (o1 ++ o2)) in *.
    assert (LL : load_log ph lk tx f1 = load_log ph (with_password lk x) tx g1).
    { unfold StartLog.load_log. cbn [lk_now lk_skel lk_ident with_password].
      unfold f1, g1. rewrite (FS f), (FC f), (FS g), (FC g).
      destruct (rd (lk_now lk) (f (ph_skel ph))) as [s| |], (rd (lk_now lk) (g (ph_skel ph))) as [s'| |]; try contradiction SS; try reflexivity;
      destruct (rd (lk_now lk) (f (ph_config ph))) as [r| |], (rd (lk_now lk) (g (ph_config ph))) as [r'| |]; try contradiction SC; reflexivity. }
    destruct (load_ops ph lk f1) as [o3 res] eqn:L. destruct (load_ops ph (with_password lk x) g1) as [o3' res'] eqn:L'.
    cbn [fst] in P1, P2, P3, P4.
    pose proof (load_result ph lk f1 o3 res L) as LR. pose proof (load_result ph (with_password lk x) g1 o3' res' L') as LR'. cbv zeta in LR, LR'.
    cbn [lk_now with_password] in LR'. unfold f1 in LR. unfold g1 in LR'. rewrite (FS f), (FC f) in LR. rewrite (FS g), (FC g) in LR'.
    rewrite <- LL, P1, P2, P3, P4, E1, E2. change (lk_mac (with_password lk x)) with (lk_mac lk). change (lk_save (with_password lk x)) with (lk_save lk).
    destruct res as [p| |], res' as [p'| |]; try contradiction LR; try contradiction LR'.
    - destruct (lk_mac lk); cbn [negb]; [|reflexivity].
      destruct LR as (_ & _ & ->), LR' as (_ & _ & ->).
      assert (EQ : p_uuid (loaded_from lk (rd (lk_now lk) (f (ph_skel ph))) (rd (lk_now lk) (f (ph_config ph)))) =
                   p_uuid (loaded_from (with_password lk x) (rd (lk_now lk) (g (ph_skel ph))) (rd (lk_now lk) (g (ph_config ph)))) /\
                   p_table (loaded_from lk (rd (lk_now lk) (f (ph_skel ph))) (rd (lk_now lk) (f (ph_config ph)))) =
                   p_table (loaded_from (with_password lk x) (rd (lk_now lk) (g (ph_skel ph))) (rd (lk_now lk) (g (ph_config ph))))).
      { unfold loaded_from.
        destruct (rd (lk_now lk) (f (ph_config ph))) as [r| |], (rd (lk_now lk) (g (ph_config ph))) as [r'| |]; try contradiction SC;
          [cbn [same_but_password] in SC; tauto| |];
        (destruct (rd (lk_now lk) (f (ph_skel ph))) as [s| |], (rd (lk_now lk) (g (ph_skel ph))) as [s'| |]; try contradiction SS;
          [cbn [same_but_password] in SS; tauto| |]; split; reflexivity). }
      destruct EQ as [EU ET]. unfold build_config. rewrite ET, EU.
      destruct (add_static_all hash _ services); cbn [g_uuid]; reflexivity.
    - exfalso. destruct LR as (A & B & _). destruct LR' as [X|X]; [rewrite X in SS|rewrite X in SC].
      + destruct (rd (lk_now lk) (f (ph_skel ph))); auto.
      + destruct (rd (lk_now lk) (f (ph_config ph))); auto.
    - exfalso. destruct LR' as (A & B & _). destruct LR as [X|X]; [rewrite X in SS|rewrite X in SC].
      + destruct (rd (lk_now lk) (g (ph_skel ph))); auto.
      + destruct (rd (lk_now lk) (g (ph_config ph))); auto.
    - reflexivity.
  Qed.
End StartLog.
