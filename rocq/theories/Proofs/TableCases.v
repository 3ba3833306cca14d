(** Corollaries and counterexamples about the service table. *)
From Coq Require Import NArith ZArith List Bool String Lia.
From Verif.Model Require Import Bytes Service Alist SvcTable Mac TableJson.
From Verif.Spec Require Import TableSpec.
From Verif.Proofs Require Import TableProofs TablePropsPf TableExpiry TableJsonPf.
Import ListNotations.
Local Open Scope N_scope.
Local Open Scope list_scope.

Lemma run_ok_from hash (u : list ident) os t :
  consistent t -> built_ops os ->
  (forall k id, assigned t k id -> In k u) -> (forall now s, In (now, s) (adds os) -> In (to_ident s) u) ->
  nlen u <= 65536 ->
  exists t', tbl_run hash t os = ROk t' /\ consistent t'.
Proof.
  intros K Hb Ha Hs Hl. destruct (run_no_panic hash u os t K Hb) as [t' H]; auto.
  - intros k Hk. apply entry_idents_in in Hk as [id Hk]; auto. destruct (k_ident t K _ _ Hk) as (e & A & B).
    apply (Ha k id). exists (n_svc e). unfold stored. rewrite A. auto.
  - intros k Hk. apply in_map_iff in Hk as ([now s] & <- & Hi). eauto.
  - exists t'. split; [auto|]. eapply run_consistent; eauto.
Qed.

Lemma loaded_consistent aparse now l t :
  load_entries aparse now (table_new now) 0 l = ROk t ->
  (forall j e, In j l -> entry_from_json aparse now j = ROk e -> svc_is_control (n_svc e) = false) ->
  (forall i j a b x y, nth_error l i = Some a -> nth_error l j = Some b -> i <> j ->
     entry_from_json aparse now a = ROk x -> entry_from_json aparse now b = ROk y ->
     to_ident (n_svc x) <> to_ident (n_svc y)) ->
  consistent t.
Proof.
  intros H Hc Hd. apply (load_consistent _ _ _ _ _ _ (table_new_consistent now) H).
  - intros j e Hj He. specialize (Hc j e Hj He). cbn [table_new t_idents ilookup entry_new n_svc].
    destruct (ident_eq_dec _ _) as [E|]; [|reflexivity]. exfalso.
    assert (Ht : i_type (to_ident (n_svc e)) = ControlProtocol) by now rewrite E.
    unfold svc_is_control in Hc. unfold to_ident in Ht. cbn in Ht. rewrite Ht in Hc. discriminate.
  - intros i j a b Ha Hb Hne x y Hx Hy. exact (Hd i j a b x y Ha Hb Hne Hx Hy).
Qed.

Definition a9 : saddr := {| sa_ip := V4 9; sa_port := 80 |}.
Definition cam : service := svc_rtsp 1 a9 [47].
Definition hash0 : ident -> N := fun _ => 0.

Definition enc (a : saddr) : bytes := match sa_ip a with V4 x => [4; x; sa_port a] | V6 x => [6; x; sa_port a] end.
Definition dec (s : bytes) : option saddr :=
  match s with
  | [k; x; p] => Some {| sa_ip := if N.eqb k 4 then V4 x else V6 x; sa_port := p |}
  | _ => None
  end.
Lemma dec_enc a : dec (enc a) = Some a.
Proof. destruct a as [[x|x] p]; reflexivity. Qed.

Definition doc_cam : json := entry_to_json enc (entry_new 0 1 cam false true).
Definition doc_control : json := entry_to_json enc (entry_new 0 1 svc_control false true).

Definition doc_static : json := entry_to_json enc (entry_new 0 1 cam true true).

Lemma documents_refuted : exists (aparse : bytes -> option saddr) (now : Z) (l1 l2 : list json) (t1 t2 : table),
  table_from_json aparse now (JObj [(lit "services", JArr l1)]) = ROk t1 /\ ~ consistent t1 /\
  table_from_json aparse now (JObj [(lit "services", JArr l2)]) = ROk t2 /\ ~ consistent t2 /\
  (exists id, ilookup (to_ident svc_control) (t_idents t2) = Some id /\ id <> 0).
Proof.
  exists dec, 0%Z, [doc_cam; doc_cam], [doc_control]. eexists. eexists.
  split; [vm_compute; reflexivity|]. split; [|split; [vm_compute; reflexivity|split]].
  - intros K. pose proof (k_entry _ K 1) as H. cbn [t_map alookup N.eqb Pos.eqb] in H. specialize (H _ eq_refl).
    destruct H as (_ & _ & _ & H). vm_compute in H. discriminate.
  - intros K. pose proof (k_only_control _ K 1 svc_control) as H. specialize (H eq_refl eq_refl). discriminate.
  - exists 1. split; [vm_compute; reflexivity|discriminate].
Qed.

Lemma static_refuted : exists (hash : ident -> N) (t : table) (s : service) (t1 t2 : table) (id : N),
  consistent t /\ built s /\
  tbl_run hash (table_new 0) [TAdd 0 s; TAddStatic 0 s; TRefresh 1201] = ROk t1 /\ assigned t1 (to_ident s) id /\
  shown t1 id = None /\
  static t id = Some true /\ ~ enabled t id /\
  tbl_run hash t [TAdd 0 s; TRefresh 1000000] = ROk t2 /\ shown t2 id = Some s.
Proof.
  assert (Hk : forall t, load_entries dec 0 (table_new 0) 0 [doc_static] = ROk t -> consistent t).
  { intros t Ht. apply (loaded_consistent dec 0%Z [doc_static] t Ht).
    - intros j e [<-|[]] He. vm_compute in He. injection He as <-. reflexivity.
    - intros i j a b x y Hi Hj Hne. exfalso. destruct i as [|[|i]], j as [|[|j]]; cbn in Hi, Hj; congruence. }
  exists hash0. eexists. exists cam. eexists. eexists. exists 1.
  split; [apply Hk; vm_compute; reflexivity|]. split; [constructor|].
  split; [vm_compute; reflexivity|]. split; [exists cam; split; vm_compute; reflexivity|].
  split; [vm_compute; reflexivity|]. split; [vm_compute; reflexivity|]. split; [vm_compute; discriminate|].
  split; [vm_compute; reflexivity|]. vm_compute. reflexivity.
Qed.

Lemma add_refuted : exists (hash : ident -> N) (t : table) (s : service) (now : Z) (t1 t2 : table) (id : N),
  consistent t /\ built s /\
  tbl_add hash now t s = ROk (id, t1) /\ shown t1 id = None /\ tbl_get t1 id = None /\
  tbl_add_static hash now t s = ROk (id, t2) /\ shown t2 id = None.
Proof.
  assert (Hk : exists t', tbl_run hash0 (table_new 0) [TAdd 0 cam; TRefresh 1201] = ROk t' /\ consistent t').
  { apply new_run_ok; [repeat constructor|vm_compute; discriminate]. }
  destruct Hk as (t0 & H0 & K0). vm_compute in H0. injection H0 as <-.
  exists hash0. eexists. exists cam, 2000%Z. eexists. eexists. exists 1.
  split; [exact K0|]. split; [constructor|]. split; [vm_compute; reflexivity|]. repeat (split; [vm_compute; reflexivity|]).
  vm_compute. reflexivity.
Qed.

Definition lockd : service := svc_locked_rtsp 1 a9 (Some []).

Lemma json_refuted : exists (aprint : saddr -> bytes) (aparse : bytes -> option saddr) (t t' : table) (id : N) (s s' : service),
  (forall a, aparse (aprint a) = Some a) /\ consistent t /\
  table_from_json aparse 0 (table_to_json aprint t) = ROk t' /\
  stored t id = Some s /\ stored t' id = Some s' /\ to_ident s' <> to_ident s.
Proof.
  assert (Hk : exists t', tbl_run hash0 (table_new 0) [TAdd 0 lockd] = ROk t' /\ consistent t').
  { apply new_run_ok; [repeat constructor|vm_compute; discriminate]. }
  destruct Hk as (t0 & H0 & K0). vm_compute in H0. injection H0 as <-.
  exists enc, dec. eexists. eexists. exists 1, lockd, (svc_locked_rtsp 1 a9 None).
  split; [exact dec_enc|]. split; [exact K0|]. split; [vm_compute; reflexivity|]. split; [reflexivity|]. split; [reflexivity|].
  vm_compute. discriminate.
Qed.
