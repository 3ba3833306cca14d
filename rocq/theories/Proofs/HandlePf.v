(** Proofs about the objects of the C interface. *)
From Coq Require Import String NArith List Bool Lia ZifyBool ZifyNat ZifyN.
From Verif.Model Require Import Bytes Utf8 Alist Handles.
From Verif.Spec Require Import HandleSpec.
Import ListNotations.
Local Open Scope N_scope.

Lemma look_remove p q (b : boxes) : alookup p (remove q b) = if p =? q then None else alookup p b.
Proof.
  unfold remove. induction b as [|[i o] b IH]; cbn [filter alookup fst]; [now destruct (p =? q)|].
  destruct (N.eqb_spec i q) as [->|]; cbn [negb alookup].
  - rewrite IH. now destruct (N.eqb_spec p q) as [->|].
  - rewrite IH. destruct (N.eqb_spec p i) as [->|]; [|reflexivity]. now destruct (N.eqb_spec i q).
Qed.
Lemma look_replace p q o (b : boxes) :
  alookup p (replace q o b) = if p =? q then match alookup q b with Some _ => Some o | None => None end else alookup p b.
Proof.
  unfold replace. induction b as [|[i o'] b IH]; cbn [map alookup fst]; [now destruct (p =? q)|].
  destruct (N.eqb_spec i q) as [->|]; cbn [alookup].
  - rewrite N.eqb_refl. destruct (N.eqb_spec p q) as [->|]; [reflexivity|exact IH].
  - rewrite IH. destruct (N.eqb_spec p i) as [->|].
    + now destruct (N.eqb_spec i q).
    + destruct (N.eqb_spec q i); [congruence|reflexivity].
Qed.
Lemma look_in p (b : boxes) o : alookup p b = Some o -> In p (map fst b).
Proof.
  induction b as [|[i o'] b IH]; cbn [alookup map fst]; [discriminate|]. destruct (N.eqb_spec p i) as [->|]; [now left|]. right. auto.
Qed.
Lemma look_none p (b : boxes) : ~ In p (map fst b) -> alookup p b = None.
Proof. destruct (alookup p b) eqn:E; [|reflexivity]. intros H. now apply look_in in E. Qed.

(** *** What was asked for *)
Lemma func_eqb_same f g : func_eqb f g = if same_func f g then true else false.
Proof. destruct f, g; reflexivity. Qed.
Lemma file_eqb_same f g : file_eqb f g = if same_file f g then true else false.
Proof. destruct f, g; reflexivity. Qed.
Definition touches (c : call) (r p : N) : bool :=
  match c with
  | LoggerNew _ | LoggerFile _ _ | LoggerClone _ | ConfigNew | CustomNew _ | DefaultNew _ _ _ | CustomBuild _ | DefaultBuild _
  | ClientNew _ _ _ _ => r =? p
  | ConfigLogger q _ | ConfigMac q _ | ConfigDiag q _ | ConfigDiscovery q _ | ConfigVerbose q _ | CustomSet q _ _
  | DefaultSet q _ _ | DefaultCert q _ | DefaultLogger q _ => q =? p
  | _ => false
  end.
Lemma untouched c r p h o : touches c r p = false -> as_asked h p o -> as_asked ((c, r) :: h) p o.
Proof.
  intros T A. destruct c; cbn [touches] in T;
    destruct o as [l0|c0|c0|d0|s0|c0| |k0]; cbn [as_asked] in *; try exact A;
    unfold conf_as_asked, custom_as_asked, default_as_asked, conf_logger_of, mac_of, diag_of, discovery_of, verbose_of in *;
    cbn [logger_of conf_value opaque_of func_of conf_file_of file_of certs_of storage_logger_of storage_as_asked client_as_asked];
    rewrite ?T; cbn [andb]; try exact A.
  all: repeat match goal with |- context [match ?x with Some _ => _ | None => _ end] => destruct x | |- context [if ?x then _ else _] => destruct x end; exact A.
Qed.

Lemma client_task h p c b :
  client_as_asked h p c -> client_as_asked h p {| cl_conf := cl_conf c; cl_storage := cl_storage c; cl_addr := cl_addr c; cl_task := b |}.
Proof.
  induction h as [|[x r] h IH]; cbn [client_as_asked]; [auto|]. destruct x; auto.
  destruct ok; auto. destruct (r =? p); auto.
Qed.

Section Run.
  Variable fresh : N -> list N -> N.
  Hypothesis Hf : allocator fresh.

  Definition good (h : asked) (b : boxes) : Prop := forall p o, alookup p b = Some o -> p <> 0 /\ as_asked h p o.

  Lemma fresh_new n (b : boxes) : alookup (fresh n (map fst b)) b = None.
  Proof using Hf. apply look_none. apply Hf. Qed.

  (** The objects that are neither made nor changed. *)
  Lemma kept h b c r p o : good h b -> alookup p b = Some o -> touches c r p = false -> p <> 0 /\ as_asked ((c, r) :: h) p o.
  Proof using. intros G L T. destruct (G _ _ L) as [Z A]. split; [exact Z|]. now apply untouched. Qed.

  Lemma step_good n h b c r b' : good h b -> api fresh n b c = HVal r b' -> good ((c, r) :: h) b'.
  Proof using Hf.
    intros G E p o L.
    destruct c; cbn [api] in E; unfold look, with_opt, with_str, give in E.
    all: repeat match type of E with
      | context [match alookup ?x ?y with Some _ => _ | None => _ end] => let Q := fresh "Q" in destruct (alookup x y) as [[]|] eqn:Q; try discriminate E
      | context [if utf8_valid ?x then _ else _] => destruct (utf8_valid x); try discriminate E
      | context [if ?x then _ else _] => destruct x eqn:?; try discriminate E
      | context [match ?x with Some _ => _ | None => _ end] => destruct x; try discriminate E
      end.
    all: injection E as <- <-.
    all: cbn [alookup] in L; rewrite ?look_replace, ?look_remove in L.
    all: repeat match goal with H : alookup _ (remove _ _) = _ |- _ => rewrite look_remove in H end.
    all: repeat match type of L with
      | context [?x =? ?y] => destruct (N.eqb_spec x y) as [?|?]; cbv iota in L; try discriminate L
      end.
    all: try solve [eapply kept; [exact G|exact L|]; cbn [touches];
                    first [reflexivity | apply N.eqb_neq; congruence
                          | apply N.eqb_neq; let X := fresh "X" in intros X; destruct (G _ _ L) as [Z _]; congruence]].
    all: try subst p.
    all: try match goal with H : alookup _ _ = Some _ |- _ => rewrite H in L end; cbv iota in L; try (injection L as <-).
    all: repeat match goal with H : (if _ =? _ then _ else _) = Some _ |- _ => destruct (N.eqb_spec _ _) in H; [discriminate H|] end.
    all: repeat match goal with H : alookup ?q _ = Some _ |- _ => let Z := fresh "Z" in let A := fresh "A" in
           destruct (G _ _ H) as [Z A]; cbn [as_asked] in A; clear H end.
    all: split; [first [assumption | apply Hf]|].
    all: cbn [as_asked]; unfold conf_as_asked, custom_as_asked, default_as_asked, conf_logger_of, mac_of, diag_of, discovery_of, verbose_of in *;
      cbn [logger_of conf_value opaque_of func_of conf_file_of file_of certs_of storage_logger_of storage_as_asked client_as_asked];
      rewrite ?N.eqb_refl; cbn [andb].
    all: unfold cconf_new, ccustom_new, cdefault_new;
      cbn [cc_logger cc_mac cc_diag cc_discovery cc_verbose cu_opaque cu_funcs de_config de_lock de_files de_certs de_logger cl_conf cl_storage cl_addr] in *.
    all: try assumption; try exact Logic.I; try reflexivity; intuition (auto; try congruence).
    all: rewrite ?func_eqb_same, ?file_eqb_same.
    1-3: match goal with |- context [same_func ?x ?y] => destruct (same_func x y) | |- context [same_file ?x ?y] => destruct (same_file x y) end; auto.
    3-4: eapply client_task; eassumption.
    - unfold conf_as_asked. auto.
    - destruct (s =? c); [discriminate|]. apply (G _ _ Q0).
  Qed.

  Lemma run_good cs : forall n h b rs b', good h b -> api_run fresh n b cs = (rs, HVal 0 b') -> good (rev (combine cs rs) ++ h) b'.
  Proof using Hf.
    induction cs as [|c cs IH]; intros n h b rs b' G E; cbn [api_run] in E.
    - injection E as <- <-. exact G.
    - destruct (api fresh n b c) as [r b1| |] eqn:S; try discriminate.
      destruct (api_run fresh (n + 1) b1 cs) as [rs1 o1] eqn:R. injection E as <- ->.
      cbn [combine rev]. rewrite <- app_assoc. cbn [app].
      eapply IH; [|exact R]. eapply step_good; eauto.
  Qed.

  (** *** Ownership *)
  Lemma tied_lost ps : forall l b, tied l b ->
    tied (filter (fun x => negb (existsb (N.eqb (fst x)) ps)) l) (fold_left (fun b p => remove p b) ps b).
  Proof using.
    induction ps as [|q ps IH]; intros l b T; cbn [fold_left existsb].
    - intros p k. rewrite filter_In, (T p k). cbn [existsb negb]. tauto.
    - assert (T1 : tied (filter (fun x => negb (fst x =? q)) l) (remove q b)).
      { intros p k. rewrite filter_In, (T p k). cbn [fst]. rewrite look_remove. destruct (p =? q); cbn [negb].
        - split; [intros [_ H]; discriminate|intros (o & H & _); discriminate].
        - tauto. }
      specialize (IH _ _ T1). intros p k. rewrite <- (IH p k), !filter_In. cbn [fst].
      rewrite negb_orb, andb_true_iff. tauto.
  Qed.
  Lemma tied_replace l b p o o' : tied l b -> alookup p b = Some o' -> kind_of o = kind_of o' -> tied l (replace p o b).
  Proof using.
    intros T L K q k. rewrite (T q k), look_replace. destruct (N.eqb_spec q p) as [->|]; [|tauto].
    rewrite L. split; intros (x & E & X); injection E as <-; eexists; split; try reflexivity; congruence.
  Qed.
  Lemma tied_give l b n o : tied l b -> tied ((fresh n (map fst b), kind_of o) :: l) ((fresh n (map fst b), o) :: b).
  Proof using Hf.
    intros T p k. cbn [In alookup]. rewrite (T p k). destruct (N.eqb_spec p (fresh n (map fst b))) as [->|N0].
    - rewrite fresh_new. split.
      + intros [E|(x & E & _)]; [injection E as E; eexists; eauto|discriminate].
      + intros (x & E & X). injection E as <-. left. now rewrite X.
    - split; [intros [E|E]; [congruence|exact E]|auto].
  Qed.

  Ltac object_at H L :=
    let o := fresh "o" in let K := fresh "K" in
    destruct H as (o & L & K); destruct o; try discriminate K.

  Lemma fresh_nonzero n l : (fresh n l =? 0) = false.
  Proof using Hf. apply N.eqb_neq. apply Hf. Qed.

  Lemma step_safe n l b c : tied l b -> allowed Amended l c ->
    exists r b', api fresh n b c = HVal r b' /\ tied (after_call Amended l c r) b'.
  Proof using Hf.
    intros T (U & K & D & B & S). specialize (S eq_refl).
    assert (X : forall p k, In (p, k) l -> exists o, alookup p b = Some o /\ kind_of o = k) by (intros p k; apply T).
    pose proof (tied_lost (lost Amended c) l b T) as TL. unfold after_call. cbv zeta.
    set (l' := filter _ _) in *. clearbody l'.
    destruct c; cbn [uses takes amended table_ok strings map fst] in U, K, D, B, S;
      unfold lost in TL; cbn [takes amended map fst app fold_left] in TL; unfold api, look, with_opt, with_str.
    all: repeat match goal with
      | H : incl [] _ |- _ => clear H
      | H : incl (_ :: _) _ |- _ => apply incl_cons_inv in H; destruct H
      | H : exists _, _ |- _ => destruct H
      | H : _ /\ _ |- _ => destruct H
      | v : option cstr |- _ => destruct v
      end.
    all: repeat match goal with H : In (_, _) _ |- _ => apply X in H; let L := fresh "L" in object_at H L end.
    all: repeat match goal with
      | H : Forall _ (_ :: _) |- _ => inversion_clear H
      | H : Forall _ [] |- _ => clear H
      | H : utf8_valid _ = true |- _ => rewrite H; clear H
      end.
    all: repeat match goal with
      | H : alookup _ _ = Some _ |- _ => rewrite ?look_remove, H
      | |- context [?x =? ?y] => first [is_var x; is_var y; destruct (N.eqb_spec x y); [exfalso; subst; congruence|]]
      end.
    all: cbv iota; unfold give.
    all: repeat match goal with
      | |- context [if ?x then HVal _ _ else HVal _ _] => destruct x
      | |- context [match ?x with Some _ => HVal _ _ | None => HVal _ _ end] => destruct x
      end.
    all: try (eexists; eexists; split; [reflexivity|]; cbn [gives says_null amended andb];
        rewrite ?fresh_nonzero; cbv iota; rewrite ?N.eqb_refl).
    all: try exact TL.
    all: try match goal with |- tied ((?f, _) :: _) ((?f, ?o) :: _) => apply (tied_give _ _ _ o) end; try exact TL.
    all: try (eapply tied_replace; [exact TL|rewrite ?look_remove;
        try (match goal with |- context [?x =? ?y] => destruct (N.eqb_spec x y); [exfalso; subst; congruence|] end);
        eassumption|reflexivity]).
    cbn [kind_of] in K. injection K as ->. destruct (N.ltb_spec i x); [|lia]. eexists; eexists; split; [reflexivity|]. cbn [gives]. exact TL.
  Qed.

  Lemma run_safe cs : forall n l b rs o, tied l b -> api_run fresh n b cs = (rs, o) -> obeys Amended l cs rs ->
    exists b', o = HVal 0 b' /\ length rs = length cs /\ tied (holds Amended l cs rs) b'.
  Proof using Hf.
    induction cs as [|c cs IH]; intros n l b rs o T E H; cbn [api_run] in E.
    - injection E as <- <-. exists b. repeat split; auto; apply T.
    - destruct H as [A H]. destruct (step_safe n l b c T A) as (r & b1 & S & T1). rewrite S in E.
      destruct (api_run fresh (n + 1) b1 cs) as [rs1 o1] eqn:R. injection E as <- <-.
      destruct (IH _ _ _ _ _ T1 R H) as (b' & -> & L & T'). exists b'. cbn [length holds]. repeat split; auto; apply T'.
  Qed.

  Theorem safe cs rs o : api_run fresh 0 [] cs = (rs, o) -> obeys Amended [] cs rs ->
    exists b, o = HVal 0 b /\ length rs = length cs /\ tied (holds Amended [] cs rs) b.
  Proof using Hf. apply run_safe. intros p k. cbn [In alookup]. split; [easy|intros (x & E & _); discriminate]. Qed.

  Theorem no_leak cs rs o : api_run fresh 0 [] cs = (rs, o) -> obeys Amended [] cs rs -> holds Amended [] cs rs = [] -> o = HVal 0 [].
  Proof using Hf.
    intros E H Z. destruct (safe _ _ _ E H) as (b & -> & _ & T). rewrite Z in T.
    destruct b as [|[p x] b]; [reflexivity|]. exfalso. apply (proj2 (T p (kind_of x))).
    exists x. cbn [alookup]. now rewrite N.eqb_refl.
  Qed.

  Theorem settings cs rs b : api_run fresh 0 [] cs = (rs, HVal 0 b) ->
    forall p o, alookup p b = Some o -> as_asked (rev (combine cs rs)) p o.
  Proof using Hf.
    intros E p o L. assert (G : good [] []) by (intros q x; discriminate).
    pose proof (run_good _ _ _ _ _ _ G E _ _ L) as [_ A]. now rewrite app_nil_r in A.
  Qed.

  (** *** Programs that keep to the header as it is written *)
  Theorem logger_refuted : exists cs rs,
    api_run fresh 0 [] cs = (rs, HUndefined) /\ obeys AsWritten [] cs rs /\
    Forall (fun c => Forall (fun s => utf8_valid s = true) (strings c)) cs /\
    Forall (fun x => gives (fst x) = None \/ snd x <> 0) (combine cs rs).
  Proof using Hf.
    pose (q := fresh 0 []). pose (p := fresh 1 [q]).
    assert (Q : q <> p) by (intros E; destruct (Hf 1 [q]) as [_ H]; apply H; left; exact E).
    exists [LoggerNew 7; DefaultNew (lit "/etc/arrow.conf"%string) None true; DefaultLogger p q; LoggerFree q], [q; p; 0].
    assert (Q1 : (q =? p) = false) by now apply N.eqb_neq. assert (Q2 : (p =? q) = false) by (apply N.eqb_neq; congruence).
    split; [|split; [|split]].
    - cbn [api_run api]. unfold give. cbn [map fst api_run]. fold q. change (0 + 1) with 1. cbn [api_run api].
      unfold with_opt, with_str, give. cbn [map fst api_run]. fold q. fold p.
      change (utf8_valid (lit "/etc/arrow.conf"%string)) with true. cbv iota.
      cbn [api_run api]. unfold look. cbn [alookup]. rewrite ?Q1, ?N.eqb_refl. unfold remove. cbn [filter fst]. rewrite ?Q2, ?N.eqb_refl. cbn [negb alookup].
      rewrite ?N.eqb_refl. unfold replace. cbn [map fst]. rewrite ?N.eqb_refl. cbn [api_run api look alookup]. unfold look. cbn [alookup].
      rewrite Q1. reflexivity.
    - assert (Z1 : p <> 0) by apply Hf. apply N.eqb_neq in Z1.
      cbn [obeys]. unfold allowed, after_call. cbn. rewrite ?Z1. cbn.
      repeat split; try discriminate; try (intros ? []); try (repeat constructor; easy); try (intros ? [<-|[]]; cbn; auto).
      all: try (intros ? [<-|[<-|[]]]; cbn; auto).
      all: destruct H as [<-|[]]; cbn; auto.
    - repeat constructor.
    - cbn [combine]. repeat apply Forall_cons; try apply Forall_nil; cbn [gives fst snd]; try (left; reflexivity); right; apply Hf.
  Qed.

  Theorem string_refuted : exists cs rs,
    api_run fresh 0 [] cs = (rs, HUndefined) /\ obeys AsWritten [] cs rs /\
    Forall (fun c => takes AsWritten c = takes Amended c) cs /\ Forall (fun x => gives (fst x) = None \/ snd x <> 0) (combine cs rs).
  Proof using Hf.
    exists [LoggerFile [255] (Some 1)], []. split; [reflexivity|]. split; [|split; repeat constructor].
    cbn [obeys]. unfold allowed. cbn. repeat split; try discriminate; try (intros ? []). apply NoDup_nil.
  Qed.

  Theorem null_refuted : exists cs rs,
    api_run fresh 0 [] cs = (rs, HUndefined) /\ obeys AsWritten [] cs rs /\
    Forall (fun c => takes AsWritten c = takes Amended c) cs /\ Forall (fun c => Forall (fun s => utf8_valid s = true) (strings c)) cs.
  Proof using Hf.
    pose (c := fresh 0 []). pose (u := fresh 1 [c]). pose (s := fresh 2 [c]).
    exists [ConfigNew; CustomNew 0; CustomBuild u; ClientNew c s (lit "localhost"%string) false; ClientFree 0], [c; u; s; 0].
    assert (U : (c =? u) = false) by (apply N.eqb_neq; intros E; destruct (Hf 1 [c]) as [_ H]; apply H; left; exact E).
    assert (S : (c =? s) = false) by (apply N.eqb_neq; intros E; destruct (Hf 2 [c]) as [_ H]; apply H; left; exact E).
    assert (S' : (s =? c) = false) by now rewrite N.eqb_sym.
    split; [|split; [|split]].
    - cbn [api_run api]. unfold give. cbn [map fst api_run]. fold c. change (0 + 1) with 1. cbn [api_run api].
      unfold give. cbn [map fst api_run]. fold c. fold u. change (1 + 1) with 2. cbn [api_run api].
      unfold look. cbn [alookup]. rewrite N.eqb_refl. unfold remove, give. cbn [filter fst]. rewrite N.eqb_refl, U. cbn [negb map fst]. fold s.
      change (2 + 1) with 3. cbn [api_run api]. unfold look, with_str. cbn [alookup]. rewrite S, N.eqb_refl.
      unfold remove. cbn [filter fst]. rewrite S', N.eqb_refl. cbn [negb alookup]. rewrite N.eqb_refl.
      change (utf8_valid (lit "localhost"%string)) with true. cbv iota. cbn [filter fst]. rewrite N.eqb_refl. cbn [negb].
      cbn [api_run api]. reflexivity.
    - cbn [obeys]. unfold allowed, after_call. cbn.
      rewrite ?U, ?S, ?S', ?N.eqb_refl. cbn. rewrite ?S, ?S', ?N.eqb_refl. cbn.
      repeat split; try discriminate; try (intros ? []); try (repeat constructor; easy); try (intros ? [<-|[]]; cbn; auto).
      all: try (intros ? [<-|[<-|[]]]; cbn; auto).
      + destruct H as [<-|[]]; cbn; auto.
      + apply NoDup_cons; [|apply NoDup_cons; [easy|apply NoDup_nil]]. apply N.eqb_neq in S. intros [E|[]]. congruence.
    - repeat constructor.
    - repeat constructor.
  Qed.
End Run.
