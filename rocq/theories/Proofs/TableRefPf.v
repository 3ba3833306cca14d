(** Proof of C30_current_partial: which references to the service table are current. *)
From Coq Require Import NArith ZArith List Bool Lia.
From Verif.Model Require Import Bytes Service Alist SvcTable TableJson Config Client.
From Verif.Spec Require Import TableSpec ClientSpec ConfigSpec.
From Verif.Proofs Require Import ConfigProofs.
Import ListNotations.
Local Open Scope N_scope.
Local Open Scope list_scope.

Lemma step_current hash c o : (g_cur c < List.length (g_heap c))%nat ->
  let c' := cfg_step hash c o in
  (g_cur c' < List.length (g_heap c'))%nat /\ (List.length (g_heap c) <= List.length (g_heap c'))%nat /\ (g_cur c <= g_cur c')%nat /\
  (o = CReset -> (List.length (g_heap c) <= g_cur c')%nat) /\ (o <> CReset -> g_cur c' = g_cur c).
Proof.
  intros Hc. destruct o as [l now|]; cbn [cfg_step].
  - destruct (cfg_update hash c l now) as [[c' d]| |] eqn:E; cbv zeta; [|repeat split; auto; discriminate|repeat split; auto; discriminate].
    apply cfg_update_shape in E. destruct E as (t & t2 & _ & _ & _ & Hcur & Hheap & _).
    rewrite Hheap, Hcur, set_nth_length. repeat split; auto; discriminate.
  - cbn [cfg_reset fst with_heap g_heap g_cur]. rewrite app_length. cbn [List.length]. repeat split; try lia. congruence.
Qed.

Lemma run_current hash os : forall c, (g_cur c < List.length (g_heap c))%nat ->
  let c' := cfg_run hash c os in
  (g_cur c' < List.length (g_heap c'))%nat /\ (g_cur c <= g_cur c')%nat /\
  (In CReset os -> (g_cur c < g_cur c')%nat) /\ (~ In CReset os -> g_cur c' = g_cur c).
Proof.
  unfold cfg_run. induction os as [|o os IH]; intros c Hc; cbn [fold_left In]; [repeat split; auto; lia|].
  destruct (step_current hash c o Hc) as (A & B & C & D & E). destruct (IH _ A) as (A' & C' & D' & E'). cbv zeta. split; [exact A'|]. split; [lia|]. split.
  - intros [->|H]; [specialize (D eq_refl); lia|specialize (D' H); lia].
  - intros H. rewrite E', E; [reflexivity| |]; intros X; apply H; [now left|now right].
Qed.

Lemma captured_current hash c t os : current c = Some t ->
  (get_service_table (cfg_run hash c os) = get_service_table c <-> ~ In CReset os) /\
  (~ In CReset os -> cell (cfg_run hash c os) (get_service_table c) = current (cfg_run hash c os)) /\
  current (cfg_run hash c os) <> None.
Proof.
  intros H. assert (L : (g_cur c < List.length (g_heap c))%nat) by (apply nth_error_Some; unfold current, cell in H; congruence).
  destruct (run_current hash os c L) as (A & B & C & D). unfold get_service_table, current. split; [split|split].
  - intros X Y. specialize (C Y). lia.
  - exact D.
  - intros X. rewrite (D X). reflexivity.
  - unfold cell. now apply nth_error_Some.
Qed.
