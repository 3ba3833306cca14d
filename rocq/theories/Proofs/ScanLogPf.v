(** The records of the scans. *)
From Coq Require Import String NArith ZArith List Bool Lia.
From Verif.Model Require Import Bytes Text Service SvcTable TableJson JsonText Background Logger Journal ScanLog.
From Verif.Spec Require Import NumeralSpec TableSpec ClientSpec BackgroundSpec JsonSpec ScanLogSpec.
From Verif.Proofs Require Import BackgroundProofs NumeralPf JsonPf TableJsonPf.
Import ListNotations.
Local Open Scope N_scope.

Lemma end_rec_told aprint e : exists r, end_rec aprint e = [r] /\ end_told aprint e r.
Proof.
  destruct e as [err|found t]; (eexists; split; [reflexivity|]).
  - split; reflexivity.
  - split; [reflexivity|]. exists (print_dec (nlen found)), (jdump (table_to_json aprint t)). destruct (decimal (nlen found)) as [A B].
    split; [|split; [exact A|split; [exact B|split; [apply dump_jread|apply dump_visible]]]].
    unfold say, j_text. cbn [List.concat]. now rewrite app_nil_r.
Qed.

Lemma journal_app aprint es es' : forall b,
  bg_journal aprint b (es ++ es') = bg_journal aprint b es ++ bg_journal aprint (fst (bg_run b (map fst es))) es'.
Proof.
  induction es as [|[e x] es IH]; intros b; [reflexivity|]. cbn [app bg_journal map fst bg_run]. rewrite IH, app_assoc.
  destruct (bg_step b e) as [b1 o1]. cbn [fst]. destruct (bg_run b1 (map fst es)) as [b2 o2]. reflexivity.
Qed.

Lemma step_told aprint f d b h t0 ev e : binv f d b h t0 ->
  Forall2 (change_told aprint e) (state_changes (snd (bg_step b ev))) (bg_log aprint b ev e).
Proof.
  intros I. pose proof (n_threads _ _ _ _ _ I) as T. pose proof (n_handler _ _ _ _ _ I) as Hh. unfold threads_ok in T.
  destruct ev as [c|c| |t|id s| | |]; cbn [bg_step bg_log].
  - destruct (b_client b); [rewrite (push_whole _ _ Hh)|]; constructor.
  - destruct (b_main b); [rewrite (push_whole _ _ Hh)| |]; constructor.
  - destruct (b_periodic b); [rewrite (push_whole _ _ Hh)| |]; constructor.
  - rewrite Hh. destruct (b_queue b) as [|x q] eqn:Eq; [destruct (has_sender b); constructor|].
    assert (SC : forall p, state_changes (snd (scan_network (set_queue b q) t p)) = []).
    { intros p. unfold scan_network. destruct (b_feature (set_queue b q)); [destruct (_ || _); reflexivity|].
      rewrite push_whole by exact Hh. reflexivity. }
    destruct x as [[| |]|]; cbn [process_event].
    + constructor.
    + rewrite SC. constructor.
    + unfold periodic_network_scan. destruct (_ <=? _)%Z; [rewrite SC|]; constructor.
    + unfold scan_completed. cbn [set_queue b_scanner]. destruct (b_scanner b) as [i|]; [|constructor].
      destruct T as (p & rest & E & Ei & _ & Hc & _). rewrite E, find_head. destruct p; try constructor.
      exfalso. unfold completions in Hc. cbn [filter length] in Hc. discriminate.
  - unfold thread_step. cbv zeta.
    assert (TH : alive (thread_phase id (b_threads b)) = true -> b_scanning b = match thread_phase id (b_threads b) with ThScanning => true | _ => false end).
    { intros A. pose proof (phase_id _ _ _ _ _ _ I A) as Hs. rewrite Hs in T. destruct T as (p & rest & E & _ & _ & _ & _ & Hb & _).
      rewrite E, find_head in *. apply Hb. intros ->. discriminate A. }
    destruct (thread_phase id (b_threads b)) eqn:Ep; destruct s; try constructor.
    + unfold set_scanning. rewrite (TH eq_refl). cbn [eqb snd state_changes map List.concat app]. constructor; [split; reflexivity|constructor].
    + unfold set_scanning. rewrite (TH eq_refl). cbn [eqb snd state_changes map List.concat app]. destruct (end_rec_told aprint e) as (r & -> & Hr). constructor; [exact Hr|constructor].
    + rewrite push_alive by exact Hh. constructor.
  - constructor.
  - constructor.
  - constructor.
Qed.

Lemma scans_told aprint f d es ev e t0 : ascending t0 (clock (map fst es)) ->
  exists r, scan_journal aprint f d (es ++ [(ev, e)]) = scan_journal aprint f d es ++ r /\
    Forall2 (change_told aprint e) (state_changes (snd (bg_step (fst (background f d (map fst es))) ev))) r.
Proof.
  intros A. unfold scan_journal. rewrite journal_app. eexists. split; [reflexivity|]. cbn [bg_journal]. rewrite app_nil_r.
  destruct (background f d (map fst es)) as [b h] eqn:E. destruct (background_inv _ _ _ _ _ _ E A) as [[t1 I] _].
  unfold background in E. rewrite E. exact (step_told aprint f d b h t1 ev e I).
Qed.

Lemma ascending_head l l' : forall t0, ascending t0 (l ++ l') -> ascending t0 l.
Proof. induction l as [|x l IH]; intros t0 H; [exact I|]. cbn in *. destruct H as [H1 H2]. split; [exact H1|]. now apply IH. Qed.

Lemma never_warned aprint f d es t0 : ascending t0 (clock (map fst es)) ->
  Forall (fun r => j_text r <> WARNING) (scan_journal aprint f d es).
Proof.
  induction es as [|[ev e] es IH] using rev_ind; intros A; [constructor|].
  assert (A' : ascending t0 (clock (map fst es))).
  { rewrite map_app in A. unfold clock in *. rewrite flat_map_app in A. now apply ascending_head in A. }
  destruct (scans_told aprint f d es ev e t0 A') as (r & -> & F). apply Forall_app. split; [auto|].
  clear -F. induction F as [|s x l l' H F IH]; constructor; [|exact IH]. destruct s; cbn in H.
  - destruct H as [_ ->]. vm_compute. discriminate.
  - destruct e as [err|found t]; cbn in H.
    + destruct H as [_ ->]. vm_compute. intros X. discriminate.
    + destruct H as (_ & u & doc & -> & N & _). unfold numeral in N. intros X. apply numeral_iff in N as [N1 N2]; [|lia].
      destruct u as [|c u]; [now apply N1|]. cbn [app] in X. unfold WARNING in X. injection X as -> X.
      cbn in N2. discriminate.
Qed.

Lemma table_in_log aprint aparse now found t r : consistent t ->
  (forall id s, stored t id = Some s -> svc_is_control s = false -> savable aprint aparse s) ->
  (forall id x, seen t id = Some x -> (- 2 ^ 63 <= x < 2 ^ 63)%Z) ->
  end_told aprint (ScanFound found t) r ->
  exists x doc j t', j_text r = x ++ lit " services found, current service table: "%string ++ doc /\
    jread doc = Some j /\ table_from_json aparse now j = ROk t' /\
    forall id, stored t' id = stored t id /\ (id <> 0 -> static t' id = static t id /\ active t' id = active t id /\ seen t' id = seen t id).
Proof.
  intros K S N (_ & x & doc & E & _ & _ & R & _). destruct (table_roundtrip aprint aparse now t K S N) as (t' & L & _ & H & _).
  exists x, doc, (table_to_json aprint t), t'. repeat split; try assumption; try apply H; auto; apply H; auto.
Qed.

Lemma scan_lines aprint f d es t0 : ascending t0 (clock (map fst es)) ->
  Forall (fun p => match snd p with ScanFailed err => ~ In 10 err | _ => True end) es ->
  Forall (fun r => ~ In 10 (j_text r)) (scan_journal aprint f d es).
Proof.
  induction es as [|[ev e] es IH] using rev_ind; intros A L; [constructor|].
  assert (A' : ascending t0 (clock (map fst es))).
  { rewrite map_app in A. unfold clock in *. rewrite flat_map_app in A. now apply ascending_head in A. }
  apply Forall_app in L as [L L1]. apply Forall_inv in L1. cbn [snd] in L1.
  destruct (scans_told aprint f d es ev e t0 A') as (r & -> & F). apply Forall_app. split; [auto|].
  clear -F L1. induction F as [|s x l l' H F IH]; constructor; [|exact IH]. destruct s; cbn [change_told] in H.
  - destruct H as [_ ->]. vm_compute. intuition discriminate.
  - destruct e as [err|found t]; cbn [end_told] in H.
    + destruct H as [_ ->]. intros X. rewrite !in_app_iff in X. destruct X as [X|[X|X]]; [|tauto|]; vm_compute in X; intuition discriminate.
    + destruct H as (_ & u & doc & -> & N & _ & _ & V). intros X. rewrite !in_app_iff in X. destruct X as [X|[X|X]].
      * apply numeral_iff in N as [_ N]; [|lia]. revert X N. generalize 0 at 1. generalize (N.of_nat (List.length found)).
        induction u as [|c u IHu]; intros v a [] N; cbn in N.
        { subst c. discriminate. }
        { destruct (digit_val _ c); [|discriminate]. eapply IHu; eassumption. }
      * vm_compute in X. intuition discriminate.
      * rewrite Forall_forall in V. specialize (V 10 X). lia.
Qed.
