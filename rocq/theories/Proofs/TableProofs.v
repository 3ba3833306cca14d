(** Invariants of the service table. *)
From Coq Require Import NArith ZArith List Bool Lia FinFun.
From Coq Require Import ZifyBool ZifyNat ZifyN.
From Verif.Model Require Import Bytes Service Alist SvcTable.
From Verif.Spec Require Import TableSpec.
From Verif.Proofs Require Import AlistFacts.
Import ListNotations.
Local Open Scope N_scope.
Ltac Zify.zify_post_hook ::= Z.div_mod_to_equations.

(** ** Maps *)

Lemma ilookup_insert k v l k' : ilookup k' (iinsert k v l) = if ident_eq_dec k' k then Some v else ilookup k' l.
Proof.
  induction l as [|[a b] l IH]; cbn [iinsert ilookup].
  - reflexivity.
  - destruct (ident_eq_dec k a) as [->|Hk]; cbn [ilookup].
    + destruct (ident_eq_dec k' a); reflexivity.
    + rewrite IH. destruct (ident_eq_dec k' a), (ident_eq_dec k' k); congruence.
Qed.

Lemma alookup_none {V} k (l : list (N * V)) : alookup k l = None <-> ~ In k (map fst l).
Proof.
  induction l as [|[a b] l IH]; cbn [alookup map fst In]; [tauto|].
  destruct (N.eqb_spec k a) as [->|]; [split; [discriminate|intros H; exfalso; auto]|].
  rewrite IH. split; intros H; [intros [->|]; auto|auto].
Qed.

Lemma alookup_unique {V} k v (l : list (N * V)) : NoDup (map fst l) -> In (k, v) l -> alookup k l = Some v.
Proof.
  induction l as [|[a b] l IH]; cbn [alookup map fst]; intros Hn Hi; [contradiction|].
  inversion Hn as [|? ? Hn1 Hn2]; subst. destruct Hi as [[= -> ->]|Hi]; [now rewrite N.eqb_refl|].
  destruct (N.eqb_spec k a) as [->|]; [|auto].
  exfalso. apply Hn1. apply in_map_iff. exists (a, v). auto.
Qed.

Lemma keys_insert {V} k v (l : list (N * V)) :
  map fst (ainsert k v l) = match alookup k l with Some _ => map fst l | None => map fst l ++ [k] end.
Proof.
  induction l as [|[a b] l IH]; cbn [ainsert alookup map fst]; [reflexivity|].
  destruct (N.eqb_spec k a) as [->|]; cbn [map fst]; [reflexivity|].
  rewrite IH. destruct (alookup k l); reflexivity.
Qed.

Lemma NoDup_app_one {A} (x : A) l : NoDup l -> ~ In x l -> NoDup (l ++ [x]).
Proof.
  induction l as [|a l IH]; cbn; intros Hn Hx; [constructor; auto|].
  inversion Hn; subst. constructor.
  - rewrite in_app_iff. cbn. intros [|[|[]]]; subst; auto.
  - apply IH; auto.
Qed.

Lemma keys_insert_nodup {V} k v (l : list (N * V)) : NoDup (map fst l) -> NoDup (map fst (ainsert k v l)).
Proof.
  intros H. rewrite keys_insert. destruct (alookup k l) eqn:E; [auto|].
  apply NoDup_app_one; [auto|]. now apply alookup_none.
Qed.

(** ** Probing *)

Lemma probe_some f m start cur id :
  probe f m start cur = Some id -> cur < 2 ^ 16 -> alookup id m = None /\ id < 2 ^ 16.
Proof.
  revert cur. induction f as [|f IH]; cbn [probe]; intros cur H Hc; [discriminate|].
  destruct (alookup cur m) eqn:E.
  - cbv zeta in H. destruct (N.eqb (next16 cur) start); [discriminate|].
    apply IH in H; [auto|]. unfold next16. apply N.mod_lt. discriminate.
  - injection H as <-. auto.
Qed.

Lemma probe_none_aux m start f : start < 65536 ->
  forall j, N.of_nat f + j = 65536 -> probe f m start ((start + j) mod 65536) = None ->
  forall i, j <= i -> i < 65536 -> alookup ((start + i) mod 65536) m <> None.
Proof.
  intros Hs. induction f as [|f IH]; intros j Hf H i Hi Hi'; [lia|].
  cbn [probe] in H. destruct (alookup ((start + j) mod 65536) m) as [e|] eqn:E; [|discriminate].
  destruct (N.eq_dec i j) as [->|Hij]; [congruence|].
  cbv zeta in H.
  assert (En : next16 ((start + j) mod 65536) = (start + (j + 1)) mod 65536).
  { unfold next16. change (2 ^ 16) with 65536. lia. }
  rewrite En in H.
  destruct (N.eqb_spec ((start + (j + 1)) mod 65536) start) as [E2|E2].
  - exfalso. assert (j + 1 = 65536) by lia. lia.
  - apply (IH (j + 1)); [lia|exact H|lia|lia].
Qed.

Lemma probe_none m start : start < 2 ^ 16 -> probe (N.to_nat (2 ^ 16)) m start start = None ->
  forall id, id < 2 ^ 16 -> In id (map fst m).
Proof.
  intros Hs H id Hid. change (2 ^ 16) with 65536 in *.
  assert (Hlook : alookup id m <> None).
  { replace id with ((start + (id + 65536 - start) mod 65536) mod 65536) by lia.
    apply (probe_none_aux m start (N.to_nat 65536) Hs 0); [lia| |lia|lia].
    replace ((start + 0) mod 65536) with start by lia. exact H. }
  destruct (in_dec N.eq_dec id (map fst m)) as [|n]; [auto|]. apply alookup_none in n. contradiction.
Qed.

Lemma full_length m : (forall id, id < 2 ^ 16 -> In id (map (@fst N entry) m)) -> 65536 <= nlen m.
Proof.
  intros H. unfold nlen.
  assert (Hi : incl (map N.of_nat (seq 0 (N.to_nat 65536))) (map fst m)).
  { intros x Hx. apply in_map_iff in Hx as (n & <- & Hn). apply in_seq in Hn.
    apply H. change (2 ^ 16) with 65536. lia. }
  apply NoDup_incl_length in Hi.
  - rewrite !map_length, seq_length in Hi. lia.
  - apply Injective_map_NoDup; [intros a b; lia|apply seq_NoDup].
Qed.

(** ** Entries *)

Lemma built_control s : built s -> svc_is_control s = true -> s = svc_control.
Proof. intros H. destruct H; cbn; congruence. Qed.

Lemma ident_control s : built s -> to_ident s = to_ident svc_control -> s = svc_control.
Proof.
  intros H E. apply built_control; [auto|]. unfold svc_is_control.
  apply (f_equal i_type) in E. cbn in E. now rewrite E.
Qed.

Lemma same_control s s' : to_ident s = to_ident s' -> svc_is_control s = svc_is_control s'.
Proof. intros E. unfold svc_is_control. apply (f_equal i_type) in E. cbn in E. now rewrite E. Qed.

Lemma shown_entry t : consistent t -> forall id,
  shown t id = match alookup id (t_map t) with
               | Some e => if is_visible e && negb (svc_is_control (n_svc e)) then Some (n_svc e) else None
               | None => None
               end.
Proof.
  intros K id. unfold shown, tbl_visible.
  assert (Hid : forall p, In p (t_map t) -> n_id (snd p) = fst p).
  { intros [k e] Hp. apply alookup_unique in Hp; [|apply K]. apply (k_entry t K) in Hp. apply Hp. }
  generalize (k_unique t K). revert Hid. generalize (t_map t). clear K.
  induction l as [|[k e] l IH]; intros Hid Hn; [reflexivity|].
  cbn [map fst] in Hn. inversion Hn as [|? ? Hn1 Hn2]; subst.
  cbn [filter alookup snd].
  destruct (is_visible e && negb (svc_is_control (n_svc e))) eqn:Ev; cbn [map alookup snd fst].
  - replace (n_id e) with k by (symmetry; apply (Hid (k, e)); now left).
    destruct (N.eqb_spec id k) as [->|]; [now rewrite Ev|].
    apply IH; [|exact Hn2]. intros p Hp. apply Hid. now right.
  - rewrite IH; [|intros p Hp; apply Hid; now right|exact Hn2].
    destruct (N.eqb_spec id k) as [->|]; [|reflexivity].
    replace (alookup k l) with (@None entry); [now rewrite Ev|].
    symmetry. now apply alookup_none.
Qed.

(** ** Preservation *)

Lemma table_new_consistent now : consistent (table_new now).
Proof.
  split; cbn [table_new t_map t_idents t_version t_vversion n_svc entry_new].
  - cbn. constructor; [intros []|constructor].
  - intros id e. cbn [alookup]. destruct (N.eqb_spec id 0) as [->|]; [|discriminate].
    intros [= <-]. cbn [n_id n_svc]. split; [reflexivity|]. split; [reflexivity|]. split; [constructor|].
    reflexivity.
  - intros k id. cbn [ilookup]. destruct (ident_eq_dec k _) as [->|]; [|discriminate].
    intros [= <-]. cbn [alookup]. rewrite N.eqb_refl. eexists. split; [reflexivity|reflexivity].
  - cbn [alookup]. rewrite N.eqb_refl. eexists. split; [reflexivity|]. cbn. auto.
  - intros id s. unfold stored. cbn [table_new alookup t_map option_map]. destruct (N.eqb_spec id 0) as [->|]; [auto|discriminate].
  - split; reflexivity.
Qed.

Lemma versions_consistent t v vv : consistent t -> v < 2 ^ 32 -> vv < 2 ^ 32 -> consistent (with_versions t v vv).
Proof. intros [A B C D E F] Hv Hvv. split; cbn; auto. Qed.

Lemma bump_lt v : bump v < 2 ^ 32.
Proof. unfold bump. apply N.mod_lt. discriminate. Qed.

Lemma add_element_consistent fuel t e id t' :
  consistent t -> n_id e < 2 ^ 16 -> built (n_svc e) -> ilookup (to_ident (n_svc e)) (t_idents t) = None ->
  add_element_fuel fuel t e = ROk (id, t') -> consistent t'.
Proof.
  intros K Hid Hb Hno H. unfold add_element_fuel in H.
  destruct (probe fuel (t_map t) (n_id e) (n_id e)) as [i|] eqn:Hp; [|discriminate].
  injection H as <- <-.
  destruct (probe_some _ _ _ _ _ Hp Hid) as [Hfree Hi].
  destruct (k_control t K) as (c & Hc & Hcs & Hcst & Hcen).
  assert (Hnc : to_ident (n_svc e) <> to_ident svc_control).
  { intros E. destruct (k_entry t K _ _ Hc) as (_ & _ & _ & H0). rewrite Hcs in H0. rewrite E in Hno. congruence. }
  assert (Hi0 : i <> 0) by (intros ->; congruence).
  split; cbn [t_map t_idents t_version t_vversion].
  - apply keys_insert_nodup, K.
  - intros id e0. rewrite alookup_insert, ilookup_insert.
    destruct (N.eqb_spec id i) as [->|Hne].
    + intros [= <-]. cbn [n_id n_svc]. destruct (ident_eq_dec _ _); [auto|contradiction].
    + intros H0. destruct (k_entry t K _ _ H0) as (A & B & C & D). repeat split; auto.
      destruct (ident_eq_dec _ _) as [E|]; [|auto]. congruence.
  - intros k id. rewrite ilookup_insert. destruct (ident_eq_dec k _) as [->|].
    + intros [= <-]. rewrite insert_same. eexists. split; [reflexivity|]. reflexivity.
    + intros H0. destruct (k_ident t K _ _ H0) as (e0 & A & B). exists e0. split; [|auto].
      rewrite insert_other; [auto|]. congruence.
  - exists c. rewrite insert_other by auto. auto.
  - intros id s. unfold stored. cbn [t_map]. rewrite alookup_insert. destruct (N.eqb_spec id i) as [->|Hne].
    + cbn. intros [= <-] Hs. exfalso. apply Hnc. now rewrite (built_control _ Hb Hs).
    + intros H0 Hs. apply (k_only_control t K id s); auto.
  - apply K.
Qed.

Lemma add_element_cons t e id t' :
  consistent t -> n_id e < 2 ^ 16 -> built (n_svc e) -> ilookup (to_ident (n_svc e)) (t_idents t) = None ->
  add_element t e = ROk (id, t') -> consistent t'.
Proof. exact (add_element_consistent (N.to_nat (2 ^ 16)) t e id t'). Qed.

(** The table after adding an element. *)
Definition with_id (id : N) (e : entry) : entry :=
  {| n_id := id; n_svc := n_svc e; n_static := n_static e; n_enabled := n_enabled e; n_seen := n_seen e; n_active := n_active e |}.
Definition extended (t : table) (id : N) (e : entry) : table :=
  {| t_idents := iinsert (to_ident (n_svc e)) id (t_idents t); t_map := ainsert id (with_id id e) (t_map t);
     t_version := t_version t; t_vversion := t_vversion t |}.

Lemma add_element_fuel_shape fuel t e id t' : n_id e < 2 ^ 16 -> add_element_fuel fuel t e = ROk (id, t') ->
  alookup id (t_map t) = None /\ id < 2 ^ 16 /\ t' = extended t id e.
Proof.
  intros Hid H. unfold add_element_fuel in H.
  destruct (probe fuel (t_map t) (n_id e) (n_id e)) as [i|] eqn:Hp; [|discriminate].
  injection H as <- <-. destruct (probe_some _ _ _ _ _ Hp Hid). auto.
Qed.
Lemma add_element_shape t e id t' : n_id e < 2 ^ 16 -> add_element t e = ROk (id, t') ->
  alookup id (t_map t) = None /\ id < 2 ^ 16 /\ t' = extended t id e.
Proof. exact (add_element_fuel_shape (N.to_nat (2 ^ 16)) t e id t'). Qed.

Lemma hash_id_lt n : u16 n < 2 ^ 16.
Proof. unfold u16. apply N.mod_lt. discriminate. Qed.

Lemma add_service_shape hash now t s st en id t' : add_service hash now t s st en = ROk (id, t') ->
  ilookup (to_ident s) (t_idents t) = None /\ alookup id (t_map t) = None /\ id < 2 ^ 16 /\
  let e := entry_new now (u16 (hash (to_ident s))) s st en in
  t' = extended (with_versions t (bump (t_version t)) (if is_visible e then bump (t_vversion t) else t_vversion t)) id e.
Proof.
  intros H. unfold add_service in H. destruct (ilookup (to_ident s) (t_idents t)) eqn:E; [discriminate|].
  cbv zeta in H. apply add_element_shape in H; [|apply hash_id_lt]. destruct H as (A & B & C). auto.
Qed.

Lemma add_service_consistent hash now t s st en id t' :
  consistent t -> built s -> add_service hash now t s st en = ROk (id, t') -> consistent t'.
Proof.
  intros K Hb H. unfold add_service in H.
  destruct (ilookup (to_ident s) (t_idents t)) eqn:E; [discriminate|]. cbv zeta in H.
  apply add_element_cons in H; auto.
  - apply versions_consistent; [auto|apply bump_lt|]. destruct (is_visible _); [apply bump_lt|apply K].
  - cbn [n_id entry_new]. unfold u16. apply N.mod_lt. discriminate.
Qed.

Lemma update_element_consistent now t id s en id' t' :
  consistent t -> built s -> ilookup (to_ident s) (t_idents t) = Some id -> (svc_is_control s = true -> en = true) ->
  update_element now t id s en = ROk (id', t') -> consistent t'.
Proof.
  intros K Hb Hl Hen H. unfold update_element in H.
  destruct (alookup id (t_map t)) as [e|] eqn:E; [|discriminate]. cbv zeta in H. injection H as <- <-.
  destruct (k_entry t K _ _ E) as (A & B & C & D).
  destruct (k_ident t K _ _ Hl) as (e1 & E1 & E2). rewrite E in E1. injection E1 as <-.
  apply versions_consistent.
  - split; cbn [with_map t_map t_idents t_version t_vversion].
    + apply keys_insert_nodup, K.
    + intros i x. rewrite alookup_insert. destruct (N.eqb_spec i id) as [->|]; [|apply K].
      intros [= <-]. cbn [entry_update n_id n_svc]. auto.
    + intros k i H. destruct (k_ident t K _ _ H) as (x & X1 & X2).
      rewrite alookup_insert. destruct (N.eqb_spec i id) as [->|]; [|eauto].
      eexists. split; [reflexivity|]. cbn [entry_update n_svc]. congruence.
    + destruct (k_control t K) as (c & Hc & Hcs & Hcst & Hcen).
      rewrite alookup_insert. destruct (N.eqb_spec 0 id) as [<-|]; [|eauto].
      eexists. split; [reflexivity|]. cbn [entry_update n_svc n_static n_enabled].
      assert (e = c) by congruence. subst c.
      assert (Hsc : s = svc_control) by (apply ident_control; [auto|congruence]).
      rewrite Hsc. split; [reflexivity|]. split; [auto|]. apply Hen. now rewrite Hsc.
    + intros i x. unfold stored. cbn [with_map t_map]. rewrite alookup_insert.
      destruct (N.eqb_spec i id) as [->|].
      * cbn. intros [= <-] Hs. apply (k_only_control t K id (n_svc e)); [unfold stored; now rewrite E|].
        rewrite <- Hs. apply same_control. auto.
      * apply (k_only_control t K).
    + apply K.
  - destruct (service_eq_dec _ _); [apply K|apply bump_lt].
  - destruct (_ || _); [apply bump_lt|apply K].
Qed.

Lemma tbl_update_consistent hash now t s st id t' :
  consistent t -> built s -> tbl_update hash now t s st true = ROk (id, t') -> consistent t'.
Proof.
  intros K Hb H. unfold tbl_update in H. destruct (ilookup (to_ident s) (t_idents t)) eqn:E.
  - apply update_element_consistent in H; auto.
  - apply add_service_consistent in H; auto.
Qed.

Lemma alookup_mapv {V W} (f : V -> W) k l :
  alookup k (map (fun p => (fst p, f (snd p))) l) = option_map f (alookup k l).
Proof.
  induction l as [|[a b] l IH]; cbn [map alookup fst snd]; [reflexivity|].
  destruct (N.eqb k a); [reflexivity|apply IH].
Qed.

Lemma fold_bump_lt {A} (l : list A) v : v < 2 ^ 32 -> fold_left (fun v _ => bump v) l v < 2 ^ 32.
Proof. revert v. induction l as [|a l IH]; cbn; [auto|]. intros v _. apply IH, bump_lt. Qed.

Lemma refresh_consistent now t : consistent t -> consistent (tbl_refresh now t).
Proof.
  intros K. unfold tbl_refresh. apply versions_consistent; [|apply K|apply fold_bump_lt, K].
  split; cbn [with_map t_map t_idents t_version t_vversion].
  - rewrite map_map. cbn [fst]. apply K.
  - intros id e. rewrite alookup_mapv. destruct (alookup id (t_map t)) eqn:E; [|discriminate].
    intros [= <-]. cbn [update_active_flag n_id n_svc]. apply (k_entry t K _ _ E).
  - intros k id H. destruct (k_ident t K _ _ H) as (e & A & B). rewrite alookup_mapv, A.
    eexists. split; [reflexivity|]. exact B.
  - destruct (k_control t K) as (c & Hc & H). rewrite alookup_mapv, Hc. eexists. split; [reflexivity|]. exact H.
  - intros id s. unfold stored. cbn [with_map t_map]. rewrite alookup_mapv. intros H.
    apply (k_only_control t K). unfold stored. destruct (alookup id (t_map t)); [exact H|discriminate].
  - apply K.
Qed.

Lemma step_consistent hash t o t' :
  consistent t -> built_ops [o] -> tbl_step hash t o = ROk t' -> consistent t'.
Proof.
  intros K Hb H. unfold tbl_step in H. destruct o as [now s|now s|now].
  - unfold tbl_add in H. destruct (tbl_update _ _ _ _ _ _) as [[id x]| |] eqn:E; try discriminate. injection H as <-.
    apply tbl_update_consistent in E; auto. inversion Hb; auto.
  - unfold tbl_add_static in H. destruct (tbl_update _ _ _ _ _ _) as [[id x]| |] eqn:E; try discriminate. injection H as <-.
    apply tbl_update_consistent in E; auto. inversion Hb; auto.
  - injection H as <-. now apply refresh_consistent.
Qed.

Lemma built_ops_cons o os : built_ops (o :: os) <-> built_ops [o] /\ built_ops os.
Proof.
  unfold built_ops, adds. cbn [flat_map]. rewrite app_nil_r. rewrite Forall_app. reflexivity.
Qed.

Lemma run_consistent hash os : forall t t',
  consistent t -> built_ops os -> tbl_run hash t os = ROk t' -> consistent t'.
Proof.
  induction os as [|o os IH]; cbn [tbl_run]; intros t t' K Hb H; [injection H as <-; auto|].
  apply built_ops_cons in Hb as [Hb1 Hb2].
  destruct (tbl_step hash t o) as [t1| |] eqn:E; try discriminate.
  apply step_consistent in E; eauto.
Qed.

(** ** No panic *)

Lemma lookup_no_panic t k : consistent t -> tbl_get_id t k <> RPanic.
Proof.
  intros K. unfold tbl_get_id. destruct (ilookup k (t_idents t)) as [id|] eqn:E; [|discriminate].
  destruct (k_ident t K _ _ E) as (e & A & _). rewrite A. discriminate.
Qed.

Definition entry_idents (t : table) : list ident := map (fun p => to_ident (n_svc (snd p))) (t_map t).

Lemma entry_idents_nodup t : consistent t -> NoDup (entry_idents t).
Proof.
  intros K. unfold entry_idents.
  assert (Hf : forall p, In p (t_map t) -> ilookup (to_ident (n_svc (snd p))) (t_idents t) = Some (fst p)).
  { intros [k e] Hp. apply alookup_unique in Hp; [|apply K]. apply (k_entry t K) in Hp. apply Hp. }
  generalize (k_unique t K). revert Hf. generalize (t_map t), (t_idents t). clear K.
  induction l as [|[k e] l IH]; intros li Hf Hn; cbn [map]; [constructor|].
  cbn [map fst] in Hn. inversion Hn as [|? ? Hn1 Hn2]; subst. constructor.
  - intros Hi. apply in_map_iff in Hi as ([k' e'] & E & Hi'). cbn [snd] in E.
    assert (H1 := Hf (k, e) (or_introl eq_refl)). assert (H2 := Hf (k', e') (or_intror Hi')).
    cbn [snd fst] in H1, H2. rewrite E in H2. assert (k' = k) by congruence. subst k'.
    apply Hn1. apply in_map_iff. exists (k, e'). auto.
  - apply (IH li); auto. intros p Hp. apply Hf. now right.
Qed.

Lemma entry_idents_in t k : consistent t -> (In k (entry_idents t) <-> exists id, ilookup k (t_idents t) = Some id).
Proof.
  intros K. unfold entry_idents. split.
  - intros H. apply in_map_iff in H as ([i e] & <- & Hi). apply alookup_unique in Hi; [|apply K].
    apply (k_entry t K) in Hi. exists i. apply Hi.
  - intros [id H]. destruct (k_ident t K _ _ H) as (e & A & B). apply in_map_iff. exists (id, e).
    split; [auto|]. now apply alookup_in.
Qed.

Lemma full_panics_not t hash now s st en (u : list ident) :
  consistent t -> ilookup (to_ident s) (t_idents t) = None ->
  incl (entry_idents t) u -> In (to_ident s) u -> nlen u <= 65536 ->
  exists id t', add_service hash now t s st en = ROk (id, t').
Proof.
  intros K Hno Hincl Hin Hlen. unfold add_service. rewrite Hno. cbv zeta. unfold add_element, add_element_fuel.
  cbn [with_versions t_map t_idents entry_new n_id].
  destruct (probe _ _ _ _) as [id|] eqn:Hp; [eauto|]. exfalso.
  assert (Hs : u16 (hash (to_ident s)) < 2 ^ 16) by (unfold u16; apply N.mod_lt; discriminate).
  pose proof (full_length _ (probe_none _ _ Hs Hp)) as Hl.
  assert (Hn : NoDup (to_ident s :: entry_idents t)).
  { constructor; [|now apply entry_idents_nodup]. rewrite entry_idents_in by auto. intros [id E]. congruence. }
  assert (Hi : incl (to_ident s :: entry_idents t) u) by (intros x [<-|]; auto).
  apply NoDup_incl_length in Hi; [|exact Hn]. cbn [length] in Hi. unfold entry_idents in Hi.
  rewrite map_length in Hi. unfold nlen in *. lia.
Qed.

Lemma update_no_panic t hash now s st (u : list ident) :
  consistent t -> incl (entry_idents t) u -> In (to_ident s) u -> nlen u <= 65536 ->
  exists id t', tbl_update hash now t s st true = ROk (id, t').
Proof.
  intros K Hincl Hin Hlen. unfold tbl_update.
  destruct (ilookup (to_ident s) (t_idents t)) as [id|] eqn:E.
  - destruct (k_ident t K _ _ E) as (e & A & _). unfold update_element. rewrite A. cbv zeta. eauto.
  - eapply full_panics_not; eauto.
Qed.

(** The identities of a table after an operation. *)
Lemma update_idents hash now t s st id t' :
  tbl_update hash now t s st true = ROk (id, t') ->
  forall k, ilookup k (t_idents t') = if ident_eq_dec k (to_ident s) then Some id else ilookup k (t_idents t).
Proof.
  intros H k. unfold tbl_update in H. destruct (ilookup (to_ident s) (t_idents t)) as [i|] eqn:E.
  - unfold update_element in H. destruct (alookup i (t_map t)); [|discriminate]. cbv zeta in H.
    injection H as <- <-. cbn. destruct (ident_eq_dec k (to_ident s)) as [->|]; auto.
  - apply add_service_shape in H. destruct H as (_ & _ & _ & ->).
    cbn [extended t_idents with_versions entry_new n_svc]. now rewrite ilookup_insert.
Qed.

Lemma step_idents hash t o t' : consistent t -> built_ops [o] -> tbl_step hash t o = ROk t' ->
  forall k, In k (entry_idents t') -> In k (entry_idents t) \/ exists p, added o = Some p /\ k = to_ident (snd p).
Proof.
  intros K Hb H k Hk. pose proof (step_consistent _ _ _ _ K Hb H) as K'.
  rewrite entry_idents_in in * by auto. destruct Hk as [i Hi].
  unfold tbl_step in H. destruct o as [now s|now s|now]; cbn [added].
  - unfold tbl_add in H. destruct (tbl_update _ _ _ _ _ _) as [[id x]| |] eqn:E; try discriminate. injection H as <-.
    rewrite (update_idents _ _ _ _ _ _ _ E) in Hi. destruct (ident_eq_dec _ _); [right|left]; eauto.
  - unfold tbl_add_static in H. destruct (tbl_update _ _ _ _ _ _) as [[id x]| |] eqn:E; try discriminate. injection H as <-.
    rewrite (update_idents _ _ _ _ _ _ _ E) in Hi. destruct (ident_eq_dec _ _); [right|left]; eauto.
  - injection H as <-. left. exists i. exact Hi.
Qed.

Lemma run_no_panic hash (u : list ident) os : forall t,
  consistent t -> built_ops os -> incl (entry_idents t) u ->
  incl (map (fun p => to_ident (snd p)) (adds os)) u -> nlen u <= 65536 ->
  exists t', tbl_run hash t os = ROk t'.
Proof.
  induction os as [|o os IH]; intros t K Hb Hi Hu Hl; [eexists; reflexivity|].
  apply built_ops_cons in Hb as [Hb1 Hb2]. cbn [tbl_run].
  assert (Ha : forall p, added o = Some p -> In (to_ident (snd p)) u).
  { intros p Hp. apply Hu. unfold adds. cbn [flat_map]. rewrite Hp. rewrite map_app. apply in_or_app. left. now left. }
  assert (Hr : incl (map (fun p => to_ident (snd p)) (adds os)) u).
  { intros x Hx. apply Hu. unfold adds. cbn [flat_map]. rewrite map_app. apply in_or_app. now right. }
  assert (Hstep : exists t1, tbl_step hash t o = ROk t1).
  { unfold tbl_step. destruct o as [now s|now s|now]; [| |eauto].
    - destruct (update_no_panic t hash now s false u K Hi (Ha _ eq_refl) Hl) as (id & x & E).
      unfold tbl_add. rewrite E. eauto.
    - destruct (update_no_panic t hash now s true u K Hi (Ha _ eq_refl) Hl) as (id & x & E).
      unfold tbl_add_static. rewrite E. eauto. }
  destruct Hstep as [t1 E]. rewrite E. apply IH; auto.
  - eapply step_consistent; eauto.
  - intros k Hk. destruct (step_idents _ _ _ _ K Hb1 E k Hk) as [|(p & Hp & ->)]; auto.
Qed.

Lemma adds_covered os : built_ops os ->
  incl (map (fun p => to_ident (snd p)) (adds os)) (to_ident svc_control :: identities os).
Proof.
  intros Hb x Hx. apply in_map_iff in Hx as (p & <- & Hp).
  unfold built_ops in Hb. rewrite Forall_forall in Hb. specialize (Hb p Hp).
  destruct (svc_is_control (snd p)) eqn:E.
  - left. now rewrite (built_control _ Hb E).
  - right. unfold identities. apply nodup_In. apply (in_map (fun p : Z * service => to_ident (snd p))).
    apply filter_In. split; [auto|]. now rewrite E.
Qed.

Lemma new_run_ok hash now os : built_ops os -> nlen (identities os) <= 65535 ->
  exists t, tbl_run hash (table_new now) os = ROk t /\ consistent t.
Proof.
  intros Hb Hl. destruct (run_no_panic hash (to_ident svc_control :: identities os) os (table_new now)) as [t Ht].
  - apply table_new_consistent.
  - auto.
  - intros k [<-|[]]. now left.
  - now apply adds_covered.
  - unfold nlen in *. cbn [length]. lia.
  - exists t. split; [auto|]. eapply run_consistent; eauto using table_new_consistent.
Qed.
