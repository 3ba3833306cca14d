(** Custom storage, service table and loggers of the C interface. *)
From Coq Require Import String NArith List Bool Lia ZArith.
From Coq Require Import ZifyBool ZifyNat ZifyN.
From Verif.Model Require Import Bytes Utf8 Service SvcTable Logger Exports.
From Verif.Spec Require Import ExportsSpec.
From Verif.Proofs Require Import BytesFacts ExportsMem.
Import ListNotations.
Local Open Scope N_scope.

(** ** Strings *)
Lemma block_end_in l a b n : ForallOrdPairs apart l -> In (b, n) l -> b <= a -> a < b + n -> block_end a l = b + n.
Proof.
  induction l as [|[b' n'] l IH]; intros F I A B; [contradiction|]. cbn [block_end]. inversion F as [|y z F1 F2]; subst.
  destruct I as [I|I].
  - injection I as I1 I2. subst. destruct ((b <=? a) && (a <? b + n)) eqn:E; [reflexivity|lia].
  - destruct ((b' <=? a) && (a <? b' + n')) eqn:E; [|now apply IH]. rewrite Forall_forall in F1. specialize (F1 _ I).
    unfold apart in F1; cbn [fst snd] in F1. lia.
Qed.
Lemma load_cons m a n : load m a (n + 1) = m_byte m a :: load m (a + 1) n.
Proof. rewrite N.add_comm, load_split. unfold load at 1. change (N.to_nat 1) with 1%nat. cbn [seq map app]. now rewrite N.add_0_r. Qed.
Lemma c_string_read m s : forall a n, load m a (nlen s + 1) = s ++ [0] -> ~ In 0 s -> (length s < n)%nat -> c_string n a m = Some s.
Proof.
  induction s as [|x s IH]; intros a n L Z N; (destruct n as [|n]; [cbn [length] in N; lia|]); cbn [c_string].
  - unfold nlen in L; cbn [length] in L. change (N.of_nat 0 + 1) with (0 + 1) in L. rewrite load_cons in L. injection L as L. rewrite L. reflexivity.
  - replace (nlen (x :: s) + 1) with ((nlen s + 1) + 1) in L by (unfold nlen; cbn [length]; lia). rewrite load_cons in L. cbn [app] in L. injection L as L1 L2.
    rewrite L1. destruct (N.eqb_spec x 0) as [E|E]; [elim Z; now left|]. rewrite (IH (a + 1) n); [reflexivity|exact L2|intros I; apply Z; now right|cbn [length] in N; lia].
Qed.
Lemma read_string base s p t : c_sound base s -> string_at s p t -> read_cstr p (c_mem s) = Val t (c_mem s).
Proof.
  intros V [n [I [N [L Z]]]]. unfold read_cstr. pose proof (cs_live _ _ V) as F. rewrite Forall_forall in F. destruct (F _ I) as [P _]. cbn [fst] in P.
  rewrite (block_end_in _ p (p - 16) (n + 16) (cs_apart _ _ V)); [|rewrite (cs_blocks _ _ V); apply in_or_app; left; apply in_map_iff; exists (p, n); now split|lia|lia].
  rewrite (c_string_read _ t); [reflexivity|exact L|exact Z|]. unfold nlen in N. lia.
Qed.
Definition freed (s s' : c_state) (ps : list N) : Prop :=
  m_byte (c_mem s') = m_byte (c_mem s) /\ c_live s' = drops ps (c_live s).
Definition with_live (m : mem) (l : list (N * N)) : c_state := {| c_mem := m; c_live := l |}.

Lemma take_sound base s p t : c_sound base s -> string_at s p t ->
  exists m, take_string p (c_mem s) = Val (if utf8_valid t then Some t else None) m /\ c_sound base (with_live m (drop p (c_live s))) /\ m_byte m = m_byte (c_mem s).
Proof.
  intros V S. unfold take_string. rewrite (read_string base s p t V S). cbn [obind]. destruct S as [n [I _]].
  destruct (free_sound base s p n V I) as [l [E W]]. rewrite E. cbn [obind]. eexists. split; [reflexivity|]. split; [exact W|reflexivity].
Qed.
Lemma load_same m m' a n : m_byte m' = m_byte m -> load m' a n = load m a n.
Proof. intros H. apply load_ext. intros x _. now rewrite H. Qed.
Lemma string_kept s s' p q t : string_at s p t -> p <> q -> m_byte (c_mem s') = m_byte (c_mem s) -> c_live s' = drop q (c_live s) -> string_at s' p t.
Proof.
  intros [n [I [N [L Z]]]] D B E. exists n. split; [rewrite E; apply drop_in; now split|]. split; [exact N|]. split; [|exact Z]. rewrite (load_same (c_mem s)) by exact B. exact L.
Qed.
Lemma drop_comm p q l : drop p (drop q l) = drop q (drop p l).
Proof. induction l as [|x l IH]; [reflexivity|]. unfold drop in *. cbn [filter]. destruct (fst x =? q) eqn:A, (fst x =? p) eqn:B; cbn [negb filter]; rewrite ?A, ?B; cbn [negb]; now rewrite ?IH. Qed.
Lemma drops_drop ps q l : drops ps (drop q l) = drop q (drops ps l).
Proof. induction ps as [|p ps IH]; cbn [drops fold_right]; [reflexivity|]. unfold drops in IH. now rewrite IH, drop_comm. Qed.
Lemma takes_sound base : forall ps ts s, c_sound base s -> Forall2 (string_at s) ps ts -> NoDup ps ->
  exists m, take_strings ps (c_mem s) = Val (map (fun t => if utf8_valid t then Some t else None) ts) m /\
            c_sound base (with_live m (drops ps (c_live s))) /\ m_byte m = m_byte (c_mem s).
Proof.
  induction ps as [|p ps IH]; intros ts s V F N; inversion F as [|a b c d F1 F2]; subst; cbn [take_strings map].
  - exists (c_mem s). split; [reflexivity|]. split; [destruct s; exact V|reflexivity].
  - destruct (take_sound base s p b V F1) as [m1 [E1 [V1 B1]]]. rewrite E1. cbn [obind]. apply NoDup_cons_iff in N. destruct N as [N1 N2].
    destruct (IH d (with_live m1 (drop p (c_live s))) V1) as [m2 [E2 [V2 B2]]]; [|exact N2|].
    + assert (H : forall qs us, Forall2 (string_at s) qs us -> ~ In p qs -> Forall2 (string_at (with_live m1 (drop p (c_live s)))) qs us).
      { intros qs us G. induction G as [|q u qs us G1 G2 G3]; intros M; constructor.
        - apply (string_kept s _ q p u G1); [intros X; apply M; left; congruence|exact B1|reflexivity].
        - apply G3. intros X. apply M. now right. }
      now apply H.
    + cbn [c_mem with_live] in E2, B2. rewrite E2. cbn [obind]. exists m2. split; [reflexivity|]. cbn [c_live with_live] in V2. split.
      * cbn [drops fold_right]. fold (drops ps (c_live s)). rewrite <- drops_drop. exact V2.
      * now rewrite B2.
Qed.

(** ** Arrays *)
Lemma read_pointers ps : Forall (fun q => q < 2 ^ 64) ps ->
  map (fun i => of_be (firstn 8 (skipn (8 * i) (List.concat (map (to_be 8) ps))))) (seq 0 (length ps)) = ps.
Proof.
  induction 1 as [|q ps Q F IH]; [reflexivity|]. cbn [length seq map List.concat]. f_equal.
  - change (8 * 0)%nat with 0%nat. cbn [skipn]. rewrite firstn_app, to_be_length, Nat.sub_diag, firstn_O, app_nil_r.
    rewrite firstn_all2 by (rewrite to_be_length; lia). now apply of_be_to_be_small.
  - rewrite <- seq_shift, map_map. etransitivity; [|exact IH]. apply map_ext. intros i. f_equal. f_equal.
    replace (8 * S i)%nat with (8 + 8 * i)%nat by lia. rewrite skipn_app, to_be_length.
    rewrite skipn_all2 by (rewrite to_be_length; lia). cbn [app]. f_equal. lia.
Qed.
Lemma pointers_sound base s p ps : c_sound base s -> array_at s p ps -> p mod 8 = 0 -> pointers p (nlen ps) (c_mem s) = Val ps (c_mem s).
Proof.
  intros V [n [I [N [L Q]]]] AL. pose proof (cs_live _ _ V) as F. rewrite Forall_forall in F. destruct (F _ I) as [P [P2 _]]. cbn [fst snd] in P, P2.
  change (2 ^ 63) with 9223372036854775808 in P2.
  unfold pointers. assert (Z : ISIZE_MAX = 9223372036854775807) by reflexivity. rewrite Z, AL.
  destruct ((p =? 0) || negb (0 =? 0) || (9223372036854775807 <? 8 * nlen ps)) eqn:E; [rewrite N.eqb_refl in E; cbn [negb] in E; lia|].
  destruct (nlen ps =? 0) eqn:E0.
  - destruct ps; [reflexivity|]. unfold nlen in E0; cbn [length] in E0. lia.
  - unfold read_mem. rewrite (accessible_in _ (p - 16) (n + 16)); [|rewrite (cs_blocks _ _ V); apply in_or_app; left; apply in_map_iff; exists (p, n); now split|lia|lia].
    cbn [obind]. f_equal. rewrite L. unfold nlen. rewrite Nat2N.id. now apply read_pointers.
Qed.
Lemma all_some_utf8 ts : all_some (map (fun t => if utf8_valid t then Some t else None) ts) = if forallb utf8_valid ts then Some ts else None.
Proof. induction ts as [|t ts IH]; [reflexivity|]. cbn [map all_some forallb]. destruct (utf8_valid t); [|reflexivity]. cbn [andb]. rewrite IH. now destruct (forallb utf8_valid ts). Qed.
Theorem paths_loaded base s p ps ts : c_sound base s -> array_at s p ps -> p mod 8 = 0 -> Forall2 (string_at s) ps ts -> NoDup (p :: ps) ->
  exists m, load_paths 0 p (nlen ps) (c_mem s) = Val (if forallb utf8_valid ts then inl ts else inr 0) m /\
            c_sound base (with_live m (drops (p :: ps) (c_live s))).
Proof.
  intros V A AL F N. unfold load_paths. rewrite N.eqb_refl. cbn [negb]. rewrite (pointers_sound base s p ps V A AL). cbn [obind].
  apply NoDup_cons_iff in N. destruct N as [N1 N2]. destruct (takes_sound base ps ts s V F N2) as [m1 [E1 [V1 B1]]]. rewrite E1. cbn [obind].
  destruct A as [n [I _]].
  assert (I1 : In (p, n) (drops ps (c_live s))).
  { clear - I N1. induction ps as [|q ps IH]; [exact I|]. cbn [drops fold_right]. apply drop_in. cbn [fst]. split; [apply IH; intros X; apply N1; now right|]. intros X. apply N1. now left. }
  destruct (free_sound base (with_live m1 (drops ps (c_live s))) p n V1 I1) as [l [E2 V2]]. cbn [c_mem with_live] in E2. rewrite E2. cbn [obind].
  eexists. split; [rewrite all_some_utf8; now destruct (forallb utf8_valid ts)|]. exact V2.
Qed.
Theorem config_loaded base C (parse : bytes -> option C) (create : C) s p t : c_sound base s -> string_at s p t ->
  exists m, load_config parse create 0 p (c_mem s) = Val (match (if utf8_valid t then parse t else None) with Some c => inl c | None => inr 0 end) m /\
            c_sound base (with_live m (drop p (c_live s))).
Proof.
  intros V S. unfold load_config. rewrite N.eqb_refl. cbn [negb]. pose proof S as [n [I _]].
  pose proof (cs_live _ _ V) as F. rewrite Forall_forall in F. destruct (F _ I) as [P _]. cbn [fst] in P.
  destruct (N.eqb_spec p 0) as [E|E]; [lia|]. rewrite (read_string base s p t V S). cbn [obind].
  destruct (free_sound base s p n V I) as [l [E1 W]]. rewrite E1. cbn [obind]. eexists. split; [reflexivity|exact W].
Qed.

(** ** Service table *)
Lemma has_zero_in s : has_zero s = true <-> In 0 s.
Proof. unfold has_zero. rewrite existsb_exists. split; [intros [x [I E]]; apply N.eqb_eq in E; now subst|intros I; exists 0; split; [exact I|reflexivity]]. Qed.
Lemma native_ok id s : complete s ->
  match native_service id s with
  | Some v => exported id s v /\ (forall p, s_path s = Some p -> ~ In 0 p)
  | None => exists p, s_path s = Some p /\ In 0 p
  end.
Proof.
  intros [M A]. unfold native_service. destruct (s_mac s) as [mac|] eqn:EM; [|now elim M]. destruct (s_addr s) as [a|] eqn:EA; [|now elim A].
  destruct (s_path s) as [p|] eqn:EP.
  - destruct (has_zero p) eqn:Z.
    + exists p. split; [reflexivity|]. now apply has_zero_in.
    + unfold exported; cbn. rewrite EM, EA, EP. split; [destruct a; auto 10|]. intros q Q X. injection Q as Q. subst q. apply has_zero_in in X. congruence.
  - unfold exported; cbn. rewrite EM, EA, EP. split; [destruct a; auto 10|discriminate].
Qed.
Theorem table_exported l : Forall (fun p => svc_is_control (snd p) = false -> complete (snd p)) l ->
  match native_table l with
  | Some vs => Forall2 (fun p v => exported (fst p) (snd p) v) (filter (fun p => negb (svc_is_control (snd p))) l) vs
  | None => exists p t, In p l /\ svc_is_control (snd p) = false /\ s_path (snd p) = Some t /\ In 0 t
  end.
Proof.
  unfold native_table. induction 1 as [|x l X F IH]; [constructor|]. cbn [filter]. destruct (svc_is_control (snd x)) eqn:C; cbn [negb].
  - destruct (all_some _); [exact IH|]. destruct IH as [p [t [I R]]]. exists p, t. split; [now right|exact R].
  - cbn [map all_some]. pose proof (native_ok (fst x) (snd x) (X eq_refl)) as N. destruct (native_service (fst x) (snd x)) as [v|].
    + destruct (all_some _) as [vs|]; cbn [option_map].
      * constructor; [exact (proj1 N)|exact IH].
      * destruct IH as [p [t [I R]]]. exists p, t. split; [now right|exact R].
    + destruct N as [p [N1 N2]]. exists x, p. split; [now left|]. now split.
Qed.
Theorem table_panics l : (exists p t, In p l /\ svc_is_control (snd p) = false /\ s_path (snd p) = Some t /\ In 0 t) -> native_table l = None.
Proof.
  intros [p [t [I [C [P Z]]]]]. unfold native_table. induction l as [|x l IH]; [contradiction|]. cbn [filter]. destruct I as [I|I].
  - subst x. rewrite C. cbn [negb map all_some]. assert (N : native_service (fst p) (snd p) = None).
    { unfold native_service. rewrite P. apply has_zero_in in Z. now rewrite Z. }
    now rewrite N.
  - specialize (IH I). destruct (svc_is_control (snd x)); cbn [negb]; [exact IH|]. cbn [map all_some]. destruct (native_service (fst x) (snd x)); [|reflexivity].
    destruct (all_some _); [discriminate|reflexivity].
Qed.
Lemma visible_no_control t : filter (fun p => negb (svc_is_control (snd p))) (tbl_visible t) = tbl_visible t.
Proof.
  unfold tbl_visible. induction (t_map t) as [|x l IH]; [reflexivity|]. cbn [filter]. destruct (is_visible (snd x)); cbn [andb]; [|exact IH].
  destruct (svc_is_control (n_svc (snd x))) eqn:E; cbn [negb]; [exact IH|]. cbn [map filter snd]. rewrite E. cbn [negb]. now rewrite IH.
Qed.
Theorem client_table t : Forall (fun p => complete (snd p)) (tbl_visible t) ->
  match get_service_table t with
  | Some vs => Forall2 (fun p v => exported (fst p) (snd p) v) (tbl_visible t) vs
  | None => exists p x, In p (tbl_visible t) /\ s_path (snd p) = Some x /\ In 0 x
  end.
Proof.
  intros F. unfold get_service_table. rewrite visible_no_control. pose proof (table_exported (tbl_visible t)) as H. rewrite visible_no_control in H.
  assert (G : Forall (fun p => svc_is_control (snd p) = false -> complete (snd p)) (tbl_visible t)) by (eapply Forall_impl; [|exact F]; auto).
  specialize (H G). destruct (native_table (tbl_visible t)); [exact H|]. destruct H as [p [x [I [_ R]]]]. exists p, x. now split.
Qed.

(** ** Starts *)
Lemma starts_none n c : nc_task c = false -> starts n c = repeat false n.
Proof. intros H. revert c H. induction n as [|n IH]; intros c H; [reflexivity|]. cbn [starts repeat]. unfold start_client. rewrite H. now rewrite IH. Qed.
Lemma starts_once n c : nc_task c = true -> starts (S n) c = true :: repeat false n.
Proof. intros H. cbn [starts]. unfold start_client. rewrite H. now rewrite starts_none. Qed.

Lemma runs_once n c : nc_task c = true -> nc_runs (after_starts (S n) c) = nc_runs c + 1.
Proof.
  intros H. cbn [after_starts]. unfold start_client at 1. rewrite H. cbn [fst].
  assert (X : forall m r, after_starts m {| nc_task := false; nc_runs := r |} = {| nc_task := false; nc_runs := r |})
    by (induction m as [|m IH]; intros r; [reflexivity|exact (IH r)]).
  now rewrite X.
Qed.

(** ** The logger *)
Lemma logs_delivered : forall ls c, cb_poisoned c = false -> Forall (fun l => ~ In 0 (l_file l) /\ ~ In 0 (l_msg l)) ls ->
  exists c', cb_logs ls c = (c', repeat true (length ls)) /\ cb_poisoned c' = false /\ cb_level c' = cb_level c /\
    rev (cb_calls c') = rev (cb_calls c) ++ map as_call (filter (fun l => sev_num (cb_level c) <=? sev_num (l_sev l)) ls).
Proof.
  induction ls as [|l ls IH]; intros c P F; cbn [cb_logs length repeat].
  - exists c. cbn [filter map]. rewrite app_nil_r. auto.
  - pose proof (Forall_inv F) as [Z1 Z2]. apply Forall_inv_tail in F. unfold cb_log. rewrite P. cbn [filter].
    assert (Y1 : has_zero (l_file l) = false) by (destruct (has_zero (l_file l)) eqn:E; [apply has_zero_in in E; contradiction|reflexivity]).
    assert (Y2 : has_zero (l_msg l) = false) by (destruct (has_zero (l_msg l)) eqn:E; [apply has_zero_in in E; contradiction|reflexivity]).
    destruct (sev_num (l_sev l) <? sev_num (cb_level c)) eqn:S.
    + replace (sev_num (cb_level c) <=? sev_num (l_sev l)) with false by lia. destruct (IH c P F) as [c' [E R]]. rewrite E. exists c'. split; [reflexivity|exact R].
    + replace (sev_num (cb_level c) <=? sev_num (l_sev l)) with true by lia. rewrite Y1, Y2. cbn [orb].
      match goal with |- context [cb_logs ls ?x] => destruct (IH x eq_refl F) as [c' [E [R1 [R2 R3]]]] end. rewrite E. exists c'. split; [reflexivity|].
      split; [exact R1|]. split; [exact R2|]. rewrite R3. cbn [cb_calls cb_level rev map]. rewrite <- app_assoc. reflexivity.
Qed.
Lemma logs_poisoned ls c : cb_poisoned c = true -> cb_logs ls c = (c, repeat false (length ls)).
Proof. intros P. induction ls as [|l ls IH]; [reflexivity|]. cbn [cb_logs length repeat]. unfold cb_log. rewrite P, IH. reflexivity. Qed.
Lemma log_zero l ls c : cb_poisoned c = false -> sev_num (cb_level c) <= sev_num (l_sev l) -> In 0 (l_msg l) ->
  exists c', cb_logs (l :: ls) c = (c', repeat false (length (l :: ls))) /\ cb_calls c' = cb_calls c.
Proof.
  intros P S Z. cbn [cb_logs length repeat]. unfold cb_log. rewrite P. replace (sev_num (l_sev l) <? sev_num (cb_level c)) with false by lia.
  apply has_zero_in in Z. rewrite Z, orb_true_r. rewrite logs_poisoned by reflexivity. eexists. split; [reflexivity|reflexivity].
Qed.

(** ** Simple cases *)
Lemma malloc_null ovf fresh m n : n + 16 < 2 ^ 63 -> fresh m (16 + n) = 0 -> Forall (fun b => fst b <> 0) (m_blocks m) -> ac_malloc ovf fresh n m = UB.
Proof.
  intros L Z F. change (2 ^ 63) with 9223372036854775808 in L. unfold ac_malloc, USIZE, LAYOUT, ISIZE_MAX. change (2 ^ 64) with 18446744073709551616. change (2 ^ 63 - 1) with 9223372036854775807.
  replace (18446744073709551616 <=? 16 + n) with false by lia. rewrite andb_false_r. rewrite N.mod_small by lia.
  replace (9223372036854775807 <? 16 + n) with false by lia. unfold alloc. rewrite Z. rewrite N.eqb_refl. unfold write_mem, accessible.
  replace (existsb _ (m_blocks m)) with false; [reflexivity|]. symmetry. clear - F. induction F as [|x l X F IH]; [reflexivity|]. cbn [existsb]. rewrite IH.
  replace (fst x <=? 0) with false by lia. reflexivity.
Qed.
Lemma codes C (parse : bytes -> option C) (create : C) code p len m : code <> 0 ->
  load_paths code p len m = Val (inr code) m /\ load_config parse create code p m = Val (inr code) m /\
  load_config parse create 0 0 m = Val (inl create) m.
Proof. intros H. unfold load_paths, load_config. apply N.eqb_neq in H. rewrite H. auto. Qed.
Lemma null_paths len m : load_paths 0 0 len m = UB.
Proof. reflexivity. Qed.
Lemma client_table_zero t : (exists p x, In p (tbl_visible t) /\ s_path (snd p) = Some x /\ In 0 x) -> get_service_table t = None.
Proof.
  intros [p [x [I [P Z]]]]. unfold get_service_table. rewrite visible_no_control. apply table_panics. exists p, x. repeat split; auto.
  rewrite <- visible_no_control in I. apply filter_In in I. destruct I as [_ I]. destruct (svc_is_control (snd p)); [discriminate I|reflexivity].
Qed.
Lemma index_range l i : (get_service l i = None <-> nlen l <= i) /\ (forall v, get_service l i = Some v -> In v l).
Proof.
  unfold get_service. split; [|intros v; apply nth_error_In]. unfold nlen. rewrite nth_error_None. split; intros H; lia.
Qed.
Lemma buffers v : nv_mac v < 2 ^ 48 -> (match nv_ip v with V4 n => n < 2 ^ 32 | V6 n => n < 2 ^ 128 end) ->
  of_be (mac_buffer v) = nv_mac v /\ length (mac_buffer v) = 6%nat /\
  match native_version v with
  | 4 => length (ip_buffer v) = 4%nat /\ nv_ip v = V4 (of_be (ip_buffer v))
  | 6 => length (ip_buffer v) = 16%nat /\ nv_ip v = V6 (of_be (ip_buffer v))
  | _ => False
  end.
Proof.
  intros M I. unfold mac_buffer, ip_buffer, native_version. split; [now apply of_be_to_be_small|]. split; [apply to_be_length|].
  destruct (nv_ip v) as [n|n]; cbn [ip_version]; (split; [apply to_be_length|]); rewrite of_be_to_be_small; auto.
Qed.

(** ** Deciding whether a program is legal *)
Definition legalb (fresh : mem -> N -> N) (o : c_op) (s : c_state) : bool :=
  match o with
  | CMalloc n => (n + 16 <? 2 ^ 63) && negb (fresh (c_mem s) (n + 16) =? 0)
  | CFree p => existsb (fun x => fst x =? p) (c_live s)
  | CStore a d => existsb (fun x => (fst x <=? a) && (a + nlen d <=? fst x + snd x)) (c_live s)
  end.
Fixpoint legalb_run (ovf : bool) (fresh : mem -> N -> N) (l : list c_op) (s : c_state) : bool :=
  match l with
  | [] => true
  | o :: r => legalb fresh o s && match c_step ovf fresh o s with Some s' => legalb_run ovf fresh r s' | None => true end
  end.
Lemma legalb_ok fresh o s : legalb fresh o s = true -> c_legal fresh o s.
Proof.
  destruct o as [n|p|a d]; cbn [legalb c_legal]; intros H.
  - apply andb_true_iff in H. destruct H as [H1 H2]. split; [now apply N.ltb_lt|]. intros E. now rewrite E in H2.
  - apply existsb_exists in H. destruct H as [[q n] [I E]]. apply N.eqb_eq in E. cbn [fst] in E. subst q. now exists n.
  - apply existsb_exists in H. destruct H as [[q n] [I E]]. cbn [fst snd] in E. exists q, n. split; [exact I|]. apply andb_true_iff in E. destruct E as [E1 E2].
    split; now apply N.leb_le.
Qed.
Lemma legalb_run_ok ovf fresh l : forall s, legalb_run ovf fresh l s = true -> c_legal_run ovf fresh l s.
Proof.
  induction l as [|o l IH]; intros s H; [exact I|]. cbn [legalb_run] in H. cbn [c_legal_run]. apply andb_true_iff in H. destruct H as [H1 H2].
  split; [now apply legalb_ok|]. destruct (c_step ovf fresh o s); [now apply IH|exact I].
Qed.
