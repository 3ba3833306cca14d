(** Proofs of C128. *)
From Coq Require Import String NArith ZArith List Bool Lia ZifyBool ZifyNat ZifyN.
From Verif.Model Require Import Bytes Service Alist SvcTable TableJson Config Start.
From Verif.Spec Require Import DocSpec StartSpec RoomSpec.
From Verif.Proofs Require Import AlistFacts TableProofs TableJsonPf DocPf StartPf.
Import ListNotations.
Local Open Scope N_scope.
Local Open Scope list_scope.

Lemma sound_holding t : sound t -> holding (t_map t) (size t).
Proof. intros (A & B & _). repeat split; auto. Qed.
Lemma ainsert_keys {V} k (v : V) l : alookup k l <> None -> map fst (ainsert k v l) = map fst l.
Proof.
  induction l as [|[a b] l IH]; cbn [ainsert alookup]; [congruence|]. destruct (N.eqb_spec k a) as [->|]; [reflexivity|].
  intros H. cbn [map fst]. now rewrite (IH H).
Qed.
Lemma ilookup_iinsert k v l k' : ilookup k' (iinsert k v l) = if ident_eq_dec k' k then Some v else ilookup k' l.
Proof.
  induction l as [|[a b] l IH]; cbn [iinsert ilookup].
  - now destruct (ident_eq_dec k' k).
  - destruct (ident_eq_dec k a) as [->|H]; cbn [ilookup].
    + now destruct (ident_eq_dec k' a).
    + rewrite IH. destruct (ident_eq_dec k' a) as [->|]; [|reflexivity]. now destruct (ident_eq_dec a k) as [->|].
Qed.
Lemma sound_same_keys t m v vv : sound t -> map fst m = map fst (t_map t) ->
  sound {| t_idents := t_idents t; t_map := m; t_version := v; t_vversion := vv |}.
Proof. unfold sound. cbn [t_map t_idents]. intros H ->. exact H. Qed.
Lemma size_keys t t' : map fst (t_map t') = map fst (t_map t) -> size t' = size t.
Proof. intros H. unfold size, nlen. rewrite <- (map_length fst (t_map t')), H, map_length. reflexivity. Qed.

Lemma add_element_sound t e : sound t -> size t < 65536 -> n_id e < 65536 ->
  exists id t', add_element t e = ROk (id, t') /\ sound t' /\ size t' = size t + 1.
Proof.
  intros S R Hid. destruct (add_element_room t e _ (sound_holding _ S) R Hid) as (id & F & E & M & (A & B & C)).
  exists id, (extended t id e). split; [exact E|]. split; [|exact C]. split; [exact A|]. split; [exact B|].
  intros k i. rewrite M, map_app. unfold extended. cbn [t_idents map fst]. rewrite ilookup_iinsert.
  destruct (ident_eq_dec k (to_ident (n_svc e))).
  - intros X. injection X as <-. apply in_or_app. right. now left.
  - intros X. apply in_or_app. left. now apply (proj2 (proj2 S)) in X.
Qed.
Lemma update_sound hash now t s st en : sound t -> size t < 65536 ->
  exists id t', tbl_update hash now t s st en = ROk (id, t') /\ sound t' /\ size t' <= size t + 1.
Proof.
  intros S R. unfold tbl_update. destruct (ilookup (to_ident s) (t_idents t)) as [id|] eqn:I.
  - unfold update_element. pose proof (proj2 (proj2 S) _ _ I) as X. apply look_keys in X.
    destruct (alookup id (t_map t)) as [e|] eqn:L; [|congruence]. cbv zeta. eexists _, _. split; [reflexivity|].
    assert (K : forall e', map fst (ainsert id e' (t_map t)) = map fst (t_map t)) by (intros; apply ainsert_keys; congruence).
    split; [apply (sound_same_keys t _ _ _ S); apply K|]. rewrite (size_keys t) by (cbn; apply K). lia.
  - unfold add_service. cbv zeta. rewrite I.
    set (t1 := with_versions t _ _). assert (S1 : sound t1) by (now apply sound_same_keys).
    destruct (add_element_sound t1 (entry_new now (u16 (hash (to_ident s))) s st en) S1 R) as (id & t' & E & A & B).
    + cbn [n_id entry_new]. apply hash_id_lt.
    + exists id, t'. split; [exact E|]. split; [exact A|]. unfold size in *. cbn [t1 with_versions t_map] in B. lia.
Qed.
Lemma update_full hash now t s st en : sound t -> size t = 65536 -> ilookup (to_ident s) (t_idents t) = None ->
  tbl_update hash now t s st en = RPanic.
Proof.
  intros S R I. unfold tbl_update. rewrite I. unfold add_service. cbv zeta. rewrite I. apply add_element_full.
  - pose proof (sound_holding _ S) as H. rewrite R in H. exact H.
  - cbn [n_id entry_new]. apply hash_id_lt.
Qed.
Lemma add_all_sound hash l : forall t, sound t -> size t + nlen l <= 65536 ->
  exists t', add_all hash t l = ROk t' /\ sound t' /\ size t' <= size t + nlen l.
Proof.
  induction l as [|[now s] l IH]; intros t S R; cbn [add_all].
  - exists t. repeat split; try apply S. lia.
  - unfold nlen in R. cbn [length] in R. destruct (update_sound hash now t s false true S ltac:(lia)) as (id & t1 & E & S1 & R1).
    unfold tbl_add. rewrite E. destruct (IH t1 S1) as (t' & E' & S' & R'); [unfold nlen; lia|]. exists t'. split; [exact E'|].
    split; [exact S'|]. unfold nlen in *. cbn [length]. lia.
Qed.
Lemma add_static_sound hash l : forall t, sound t -> size t + nlen l <= 65536 ->
  exists t', add_static_all hash t l = ROk t' /\ sound t' /\ size t' <= size t + nlen l.
Proof.
  induction l as [|[now s] l IH]; intros t S R; cbn [add_static_all].
  - exists t. repeat split; try apply S. lia.
  - unfold nlen in R. cbn [length] in R. destruct (update_sound hash now t s true true S ltac:(lia)) as (id & t1 & E & S1 & R1).
    unfold tbl_add_static. rewrite E. destruct (IH t1 S1) as (t' & E' & S' & R'); [unfold nlen; lia|]. exists t'. split; [exact E'|].
    split; [exact S'|]. unfold nlen in *. cbn [length]. lia.
Qed.
Lemma refresh_sound now t : sound t -> sound (tbl_refresh now t) /\ size (tbl_refresh now t) = size t.
Proof.
  intros S. assert (K : map fst (t_map (tbl_refresh now t)) = map fst (t_map t)).
  { unfold tbl_refresh. cbv zeta. cbn [with_versions with_map t_map]. rewrite map_map. apply map_ext. now intros [a b]. }
  split; [exact (sound_same_keys t _ _ _ S K)|now apply size_keys].
Qed.
Lemma nth_set {A} n (x y : A) : forall l, nth_error l n = Some y -> nth_error (set_nth n x l) n = Some x.
Proof. induction n as [|n IH]; intros [|a l]; cbn [nth_error set_nth]; try discriminate; auto. Qed.
Lemma scan_room hash c t l now : cell c (g_cur c) = Some t -> sound t -> size t + nlen l <= 65536 ->
  exists c' d t', cfg_update hash c l now = ROk (c', d) /\ cell c' (g_cur c') = Some t' /\ sound t' /\ size t' <= size t + nlen l.
Proof.
  intros C S R. unfold cell in *. unfold cfg_update. rewrite C. destruct (add_all_sound hash l t S R) as (t1 & -> & S1 & R1).
  cbv zeta. destruct (refresh_sound now t1 S1) as [S2 R2].
  destruct (_ && _); eexists _, _, _; (split; [reflexivity|]); cbn [with_heap g_heap g_cur];
    (split; [apply (nth_set _ _ _ _ C)|]); (split; [exact S2|lia]).
Qed.

(** *** Reading *)
Lemma table_new_sound now : sound (table_new now) /\ size (table_new now) = 1.
Proof.
  split; [|reflexivity]. repeat split; cbn; [repeat constructor; intros []|intros id [<-|[]]; lia|].
  intros k id. destruct (ident_eq_dec k _); [|discriminate]. intros X. injection X as <-. now left.
Qed.
Lemma load_sound aparse now l : forall t i, sound t -> size t + nlen l <= 65536 ->
  match load_entries aparse now t i l with ROk t' => sound t' /\ size t' = size t + nlen l | RErr => True | RPanic => False end.
Proof.
  induction l as [|j l IH]; intros t i S R; cbn [load_entries].
  - split; [exact S|]. unfold nlen. cbn [length]. lia.
  - unfold nlen in R. cbn [length] in R. destruct (entry_from_json aparse now j) as [e| |] eqn:E; [|exact Logic.I|now apply entry_no_panic in E].
    cbv zeta. set (e' := if has_key (lit "id") j then e else _).
    assert (Hid : n_id e' < 65536).
    { unfold e'. destruct (has_key (lit "id") j); [now apply entry_from_json_shape in E|apply hash_id_lt]. }
    destruct (add_element_sound t e' S ltac:(lia) Hid) as (id & t1 & -> & S1 & R1).
    specialize (IH t1 (i + 1) S1 ltac:(unfold nlen; lia)). destruct (load_entries aparse now t1 (i + 1) l); auto.
    destruct IH as [A B]. split; [exact A|]. unfold nlen in *. cbn [length]. lia.
Qed.
Lemma file_sound aparse uparse now d n : lists_at_most d n -> n <= 65535 ->
  match load_file aparse uparse now d with ROk p => sound (p_table p) /\ size (p_table p) <= n + 1 | RErr => True | RPanic => False end.
Proof.
  intros L B. unfold load_file. destruct d as [j|]; [|exact Logic.I]. unfold pconfig_from_json. destruct j as [| | | | |o]; auto.
  destruct (field_of (lit "svc_table") o) as [v|] eqn:F; [|exact Logic.I]. apply field_spec in F. specialize (L o v).
  assert (T : match table_from_json aparse now v with ROk t => sound t /\ size t <= n + 1 | RErr => True | RPanic => False end).
  { unfold table_from_json. destruct v as [| | | | |o']; auto. destruct (field_of (lit "services") o') as [w|] eqn:G; auto.
    apply field_spec in G. destruct w as [| | | |l|]; auto. specialize (L l eq_refl F (ex_intro _ o' (conj eq_refl G))).
    destruct (table_new_sound now) as [S0 R0].
    pose proof (load_sound aparse now l (table_new now) 0 S0 ltac:(lia)) as X. destruct (load_entries aparse now (table_new now) 0 l); auto.
    destruct X as [A C]. split; [exact A|lia]. }
  destruct (table_from_json aparse now v) as [t| |]; auto.
  repeat match goal with |- match (match ?x with _ => _ end) with _ => _ end => destruct x; auto end.
Qed.

Section Start.
  Variable hash : ident -> N.
  Variable aprint : saddr -> bytes.
  Variable aparse : bytes -> option saddr.
  Variable uprint : N -> bytes.
  Variable uparse : bytes -> option N.
  Variable jparse : bytes -> option json.

  Lemma load_ops_sound ph lk f n : n <= 65535 -> lists_at_most (bind (f (ph_skel ph)) jparse) n -> lists_at_most (bind (f (ph_config ph)) jparse) n ->
    exists ops p, load_ops aprint aparse uprint uparse jparse ph lk f = (ops, ROk p) /\ sound (p_table p) /\ size (p_table p) <= n + 1.
  Proof using.
    intros B L1 L2. unfold load_ops, read_config. cbv zeta.
    pose proof (file_sound aparse uparse (lk_now lk) _ n L1 B) as F1. pose proof (file_sound aparse uparse (lk_now lk) _ n L2 B) as F2.
    destruct (table_new_sound (lk_now lk)) as [S0 R0].
    destruct (load_file aparse uparse (lk_now lk) (bind (f (ph_skel ph)) jparse)) as [s| |];
      destruct (load_file aparse uparse (lk_now lk) (bind (f (ph_config ph)) jparse)) as [r| |]; try contradiction;
      eexists _, _; (split; [reflexivity|]); cbn [p_table]; auto. split; [exact S0|lia].
  Qed.
  Lemma begin_ops ph lk : (snd (take_lock ph lk) = true /\ snd (open_log ph lk) = true) <-> may_begin ph lk.
  Proof using.
    clear. unfold take_lock, open_log, may_begin. destruct (ph_lock ph), (ph_log ph), (lk_create lk), (lk_lock lk), (lk_log lk); cbn;
      intuition (try discriminate; auto).
  Qed.
  Lemma begin_files ph lk f q : distinct_paths ph -> q = ph_skel ph \/ q = ph_config ph ->
    apply_ops f (fst (take_lock ph lk) ++ fst (open_log ph lk)) q = f q.
  Proof using.
    clear. intros D Q. apply untouched. unfold distinct_paths in D. intros H. rewrite flat_map_app in H.
    assert (X : In q (opt_list (ph_lock ph) ++ opt_list (ph_log ph))).
    { apply in_app_or in H. apply in_or_app. destruct H as [H|H]; [left|right].
      - unfold take_lock in H. destruct (ph_lock ph) as [p|]; [|exact H]. destruct (lk_create lk), (lk_lock lk); cbn in *; tauto.
      - unfold open_log in H. destruct (ph_log ph) as [p|]; [|exact H]. destruct (lk_log lk); cbn in *; tauto. }
    inversion D as [|a l A1 D1]; subst. inversion D1 as [|a l A2 D2]; subst.
    destruct Q as [->| ->].
    - apply A2. apply in_or_app. now right.
    - apply A1. right. apply in_or_app. now right.
  Qed.
  Lemma start_room ph lk services flash f n : distinct_paths ph -> n + nlen services <= 65535 ->
    lists_at_most (bind (f (ph_skel ph)) jparse) n -> lists_at_most (bind (f (ph_config ph)) jparse) n ->
    let s := start hash aprint aparse uprint uparse jparse ph lk services flash f in
    snd s <> RPanic /\ ((exists c, snd s = ROk c) <-> may_begin ph lk /\ lk_mac lk = true /\ lk_save lk = FAll) /\
    (forall c, snd s = ROk c -> exists t, g_heap c = [t] /\ g_default c = t /\ sound t /\ size t <= 1 + n + nlen services).
  Proof using.
    intros D B L1 L2. cbv zeta. rewrite <- begin_ops.
    pose proof (begin_files ph lk f (ph_skel ph) D (or_introl eq_refl)) as X1.
    pose proof (begin_files ph lk f (ph_config ph) D (or_intror eq_refl)) as X2. unfold start.
    destruct (take_lock ph lk) as [o1 ok1]. destruct (open_log ph lk) as [o2 ok2]. cbn [fst snd] in *.
    assert (Bad : forall (P : Prop) (Q : config -> Prop), ~ P ->
      (RErr : result config) <> RPanic /\ ((exists c, (RErr : result config) = ROk c) <-> P) /\ (forall c, (RErr : result config) = ROk c -> Q c)).
    { intros P Q NP. split; [discriminate|]. split; [|discriminate]. split; [intros [c E]; discriminate|contradiction]. }
    destruct ok1; cbn [negb]; [|apply Bad; intros ((E & _) & _); discriminate].
    destruct ok2; cbn [negb]; [|apply Bad; intros ((_ & E) & _); discriminate].
    rewrite <- X1 in L1. rewrite <- X2 in L2.
    destruct (load_ops_sound ph lk (apply_ops f (o1 ++ o2)) n ltac:(lia) L1 L2) as (o3 & p & -> & S & R).
    destruct (lk_mac lk); cbn [negb]; [|apply Bad; intros (_ & E & _); discriminate].
    cbv zeta. unfold build_config. destruct (add_static_sound hash services (p_table p) S ltac:(lia)) as (t & -> & S' & R').
    cbn [snd]. destruct (lk_save lk); try (apply Bad; intros (_ & _ & E); discriminate).
    split; [discriminate|]. split; [split; [auto|eauto]|].
    intros c E. injection E as <-. exists t. cbn [g_heap g_default]. split; [reflexivity|]. split; [reflexivity|]. split; [exact S'|lia].
  Qed.
End Start.
