(** The log of saving the configuration. *)
From Coq Require Import String NArith ZArith List Bool Lia.
From Verif.Model Require Import Bytes Service SvcTable TableJson Config Logger Journal SaveLog.
From Verif.Spec Require Import ConfigSpec SaveLogSpec.
Import ListNotations.
Local Open Scope N_scope.
Local Open Scope list_scope.

Lemma save_same path err : save_rec path err = unsaved path err.
Proof. unfold save_rec, unsaved, say. cbn [List.concat]. rewrite app_nil_r. reflexivity. Qed.

Section SaveLog.
  Variable hash : ident -> N.
  Variable aprint : saddr -> bytes.
  Variable aparse : bytes -> option saddr.
  Variable uprint : N -> bytes.
  Variable uparse : bytes -> option N.
  Notation step := (world_step hash aprint aparse uprint uparse).
  Notation run := (world_run hash aprint aparse uprint uparse).

  Lemma step_told path sk fl s e err c : runs_on e -> w_app s = Some c ->
    forall c', w_app (fst (step sk fl s e)) = Some c' ->
    let l := save_log hash path s e err in let f' := w_config (fst (step sk fl s e)) in
    g_uuid c' = g_uuid c /\ g_passwd c' = g_passwd c /\
    ((g_version c' = g_version c /\ f' = w_config s /\ l = []) \/
     (g_version c' = g_version c + 1 /\
      match fate_of e with
      | Wrote => l = [] /\ exists t, cell c' (g_cur c') = Some t /\
          f' = Some (pconfig_to_json aprint uprint {| p_uuid := g_uuid c'; p_passwd := g_passwd c'; p_version := g_version c'; p_table := t |})
      | Kept => l = [unsaved path err] /\ f' = w_config s
      | Torn => l = [unsaved path err] /\ f' = None
      end)).
  Proof.
    intros R A c' A'. cbv zeta. destruct e as [| services now w|w|]; try contradiction; cbn [fate_of]; unfold world_step, save_log in *; rewrite A in *.
    - unfold cfg_update in *. destruct (nth_error (g_heap c) (g_cur c)) as [t|] eqn:E; [|discriminate].
      destruct (add_all hash t services) as [t1| |]; [|discriminate|discriminate].
      assert (L : (g_cur c < length (g_heap c))%nat) by (apply nth_error_Some; congruence).
      assert (N : forall x, nth_error (set_nth (g_cur c) x (g_heap c)) (g_cur c) = Some x).
      { clear - L. intros x. revert L. generalize (g_heap c). generalize (g_cur c). induction n as [|n IH]; intros [|y l] L; cbn [length] in L; try lia; cbn [set_nth nth_error]; [reflexivity|]. apply IH. lia. }
      cbv zeta in *. destruct (_ && _); cbn [fst w_app w_config] in *.
      + injection A' as <-. cbn [with_heap g_uuid g_passwd g_version]. split; [reflexivity|]. split; [reflexivity|]. left. repeat split.
      + injection A' as <-. cbn [with_heap g_uuid g_passwd g_version g_cur]. split; [reflexivity|]. split; [reflexivity|]. right. split; [reflexivity|].
        destruct w; cbn [save_result write_file]; rewrite ?save_same; split; try reflexivity.
        exists (tbl_refresh now t1). split; [apply N|reflexivity].
    - destruct (cfg_reset c) as [c0 p] eqn:E. unfold cfg_reset in E. injection E as <- <-. cbn [fst w_app w_config] in *. injection A' as <-.
      cbn [with_heap g_uuid g_passwd g_version g_cur g_heap]. split; [reflexivity|]. split; [reflexivity|]. right. split; [reflexivity|].
      destruct w; cbn [save_result write_file]; rewrite ?save_same; split; try reflexivity.
      exists (g_default c). split; [|reflexivity]. unfold cell. cbn [with_heap g_heap]. rewrite nth_error_app2, Nat.sub_diag by lia. reflexivity.
  Qed.

  Lemma not_started sk fl s e : runs_on e -> w_app s = None -> w_app (fst (step sk fl s e)) = None.
  Proof. intros R A. destruct e; try contradiction; unfold world_step; now rewrite A. Qed.
  Lemma stays_down sk fl es : forall s, Forall (fun p : wevent * bytes => runs_on (fst p)) es -> w_app s = None -> w_app (fst (run sk fl s (map fst es))) = None.
  Proof.
    induction es as [|[e err] es IH]; intros s R A; [exact A|]. inversion_clear R as [|? ? R1 R2]. cbn [map fst world_run].
    pose proof (not_started sk fl s e R1 A) as A1. destruct (step sk fl s e) as [s1 o1]. cbn [fst] in A1. specialize (IH s1 R2 A1).
    destruct (run sk fl s1 (map fst es)). exact IH.
  Qed.

  Lemma quiet_current path sk fl es : forall s c, Forall (fun p : wevent * bytes => runs_on (fst p)) es -> w_app s = Some c ->
    up_to_date aprint uprint c (w_config s) -> saves_log hash aprint aparse uprint uparse path sk fl s es = [] ->
    forall c', w_app (fst (run sk fl s (map fst es))) = Some c' -> up_to_date aprint uprint c' (w_config (fst (run sk fl s (map fst es)))).
  Proof.
    induction es as [|[e err] es IH]; intros s c R A U L c' A'; [cbn in *; congruence|].
    inversion_clear R as [|? ? R1 R2]. cbn [fst] in R1. cbn [saves_log] in L. apply app_eq_nil in L as [L1 L2]. cbn [map fst world_run] in *.
    destruct (w_app (fst (step sk fl s e))) as [c1|] eqn:A1.
    - assert (U1 : up_to_date aprint uprint c1 (w_config (fst (step sk fl s e)))).
      { destruct (step_told path sk fl s e err c R1 A c1 A1) as (I1 & I2 & [(V & F & _)|(V & T)]).
        - unfold up_to_date. rewrite I1, I2, V, F. exact U.
        - destruct (fate_of e); [|destruct T as [T _]; congruence|destruct T as [T _]; congruence].
          destruct T as (_ & t & _ & T). exists t. exact T. }
      destruct (step sk fl s e) as [s1 o1]. cbn [fst] in *. specialize (IH s1 c1 R2 A1 U1 L2).
      destruct (run sk fl s1 (map fst es)) as [s2 o2]. cbn [fst] in *. exact (IH c' A').
    - pose proof (stays_down sk fl es _ R2 A1) as SD. destruct (step sk fl s e) as [s1 o1]. cbn [fst] in *.
      destruct (run sk fl s1 (map fst es)) as [s2 o2]. cbn [fst] in *. congruence.
  Qed.

  Lemma started_current sk fl s fresh now wsk stop services w c : w_app s = None ->
    w_app (fst (step sk fl s (WStart fresh now wsk stop services w))) = Some c ->
    up_to_date aprint uprint c (w_config (fst (step sk fl s (WStart fresh now wsk stop services w)))).
  Proof.
    intros A. unfold world_step. rewrite A. destruct (load_configuration _ _ _ _ _ _ _ _) as [[p skel']| |]; [|cbn [fst w_app]; congruence|cbn [fst w_app]; congruence].
    destruct stop; [discriminate|]. destruct (build_config _ _ _ _) as [c0| |]; [|discriminate|discriminate].
    destruct w; [|discriminate|discriminate]. cbn [fst w_app w_config write_file]. intros [= <-].
    exists (nth O (g_heap c0) (table_new now)). reflexivity.
  Qed.
End SaveLog.
