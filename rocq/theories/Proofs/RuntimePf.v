(** Proofs about the client and its runtime. *)
From Coq Require Import NArith ZArith List Bool Lia ZifyBool ZifyNat ZifyN.
From Verif.Model Require Import Client Background Runtime.
From Verif.Spec Require Import ClientSpec BackgroundSpec RuntimeSpec.
From Verif.Proofs Require Import BackgroundProofs.
Import ListNotations.
Local Open Scope N_scope.

Definition going_threads (b : bg) : list N := map fst (filter (fun p => alive (snd p)) (b_threads b)).
Record tinv (b : bg) (h : list bobs) : Prop := {
  ti_nodup : NoDup (map fst (b_threads b));
  ti_below : Forall (fun p => fst p < N.of_nat (length (b_threads b))) (b_threads b);
  ti_going : scans_going h = going_threads b
}.
Definition fold_going := fold_left (fun l x => match x with
                        | OStart _ _ id => id :: l
                        | OGone _ id | OCrash id => filter (fun y => negb (y =? id)) l
                        | _ => l
                        end).
Lemma going_app' h o : scans_going (h ++ o) = fold_going o (scans_going h).
Proof. apply going_app. Qed.

Lemma push_threads b e : b_threads (fst (push b e)) = b_threads b.
Proof. unfold push. now destruct (b_handler b). Qed.
Lemma push_out b e l : fold_going (snd (push b e)) l = l.
Proof. unfold push. now destruct (b_handler b). Qed.

Lemma tinv_same b b' h o : tinv b h -> b_threads b' = b_threads b -> (forall l, fold_going o l = l) -> tinv b' (h ++ o).
Proof.
  intros [A B C] E F. split; unfold going_threads in *; rewrite E; auto. now rewrite going_app', F.
Qed.
Lemma tinv_push b e h : tinv b h -> tinv (fst (push b e)) (h ++ snd (push b e)).
Proof. intros I. apply (tinv_same b); auto. apply push_threads. intro. apply push_out. Qed.

Lemma tinv_scan b t p h : tinv b h -> tinv (fst (scan_network b t p)) (h ++ snd (scan_network b t p)).
Proof.
  intros I. unfold scan_network. destruct (b_feature b); [|now apply tinv_push].
  destruct (_ || _); [apply (tinv_same b); auto|]. destruct I as [A B C]. cbn [fst snd].
  assert (L : forall x, In x (b_threads b) -> fst x < N.of_nat (length (b_threads b))) by (now apply Forall_forall).
  split; unfold going_threads; cbn [set_threads set_scanner b_threads].
  - cbn [map fst]. constructor; [|exact A]. intros H. apply in_map_iff in H as (x & E & H). specialize (L x H). lia.
  - apply Forall_forall. cbn [length]. intros x [<-|H]; [cbn; lia|]. specialize (L x H). lia.
  - rewrite going_app', C. reflexivity.
Qed.

Lemma phase_in id l : alive (thread_phase id l) = true -> In (id, thread_phase id l) l.
Proof.
  unfold thread_phase. destruct (find _ l) as [p|] eqn:F; [|discriminate]. intros _. apply find_some in F as [H E].
  apply N.eqb_eq in E. subst id. now destruct p.
Qed.
Lemma set_fst id p l : map fst (set_thread id p l) = map fst l.
Proof. induction l as [|[i q] l IH]; [reflexivity|]. cbn. destruct (N.eqb_spec i id) as [->|]; cbn; f_equal; exact IH. Qed.
Lemma set_len id p l : length (set_thread id p l) = length l.
Proof. unfold set_thread. apply map_length. Qed.
Lemma set_below id p l n : Forall (fun x : N * tphase => fst x < n) l -> Forall (fun x => fst x < n) (set_thread id p l).
Proof.
  intros H. rewrite Forall_forall in *. intros x K. assert (G : In (fst x) (map fst l)) by (rewrite <- (set_fst id p); now apply in_map).
  apply in_map_iff in G as (y & E & G). rewrite <- E. now apply H.
Qed.
Lemma filter_notin id (l : list (N * tphase)) : ~ In id (map fst l) ->
  filter (fun y => negb (y =? id)) (map fst (filter (fun p => alive (snd p)) l)) = map fst (filter (fun p => alive (snd p)) l).
Proof.
  induction l as [|[i q] l IH]; intros H; [reflexivity|]. cbn in H. cbn [filter snd]. destruct (alive q); cbn [map filter fst].
  - destruct (N.eqb_spec i id) as [->|]; [tauto|]. cbn [negb]. f_equal. apply IH. tauto.
  - apply IH. tauto.
Qed.
Lemma set_none id p (l : list (N * tphase)) : ~ In id (map fst l) -> set_thread id p l = l.
Proof.
  induction l as [|[i q] l IH]; intros H; [reflexivity|]. cbn in H. cbn. destruct (N.eqb_spec i id) as [->|]; [tauto|].
  f_equal. apply IH. tauto.
Qed.
Lemma set_dead id p l : NoDup (map fst l) -> alive p = false ->
  map fst (filter (fun x => alive (snd x)) (set_thread id p l)) =
  filter (fun y => negb (y =? id)) (map fst (filter (fun x => alive (snd x)) l)).
Proof.
  intros N D. induction l as [|[i q] l IH]; [reflexivity|]. cbn [map fst] in N. apply NoDup_cons_iff in N as [N1 N2]. cbn [set_thread map fst].
  destruct (N.eqb_spec i id) as [->|X].
  - cbn [filter snd]. rewrite D. fold (set_thread id p l). rewrite set_none by exact N1. destruct (alive q); cbn [map filter fst].
    + rewrite N.eqb_refl. cbn [negb]. now rewrite filter_notin.
    + now rewrite filter_notin.
  - cbn [filter snd]. destruct (alive q); cbn [map filter fst].
    + destruct (N.eqb_spec i id); [contradiction|]. cbn [negb]. f_equal. now apply IH.
    + now apply IH.
Qed.
Lemma set_live id p l : NoDup (map fst l) -> alive p = true -> alive (thread_phase id l) = true ->
  map fst (filter (fun x => alive (snd x)) (set_thread id p l)) = map fst (filter (fun x => alive (snd x)) l).
Proof.
  intros N D. induction l as [|[i q] l IH]; intros A; [reflexivity|]. cbn [map fst] in N. apply NoDup_cons_iff in N as [N1 N2]. cbn [set_thread map fst].
  unfold thread_phase in A. cbn [find fst] in A. destruct (N.eqb_spec i id) as [->|X].
  - cbn [snd] in A. cbn [filter snd]. rewrite D, A. fold (set_thread id p l). now rewrite set_none by exact N1.
  - fold (thread_phase id l) in A. cbn [filter snd]. destruct (alive q); cbn [map fst]; [f_equal|]; now apply IH.
Qed.

Lemma tinv_set_live b h id p s o : tinv b h -> alive p = true -> alive (thread_phase id (b_threads b)) = true ->
  (forall l, fold_going o l = l) -> tinv (set_threads b (set_thread id p (b_threads b)) s) (h ++ o).
Proof.
  intros [A B C] D E F. split; unfold going_threads; cbn [set_threads b_threads].
  - now rewrite set_fst.
  - rewrite set_len. now apply set_below.
  - rewrite going_app', F, C. symmetry. now apply set_live.
Qed.
Lemma tinv_set_dead b h id p s x o : tinv b h -> alive p = false -> (exists t, x = OGone t id) \/ x = OCrash id ->
  (forall l, fold_going o l = l) -> tinv (set_threads b (set_thread id p (b_threads b)) s) (h ++ x :: o).
Proof.
  intros [A B C] D E F. split; unfold going_threads; cbn [set_threads b_threads].
  - now rewrite set_fst.
  - rewrite set_len. now apply set_below.
  - rewrite set_dead by assumption. rewrite going_app', C. unfold fold_going. cbn [fold_left]. fold fold_going. rewrite F.
    destruct E as [[t ->]| ->]; reflexivity.
Qed.

Lemma tinv_thread b id s h : tinv b h -> tinv (fst (thread_step b id s)) (h ++ snd (thread_step b id s)).
Proof.
  intros I. assert (Z0 : tinv b (h ++ [])) by (apply (tinv_same b); auto). unfold thread_step.
  assert (Q : forall r, fold_going (if eqb (b_scanning b) r then [] else [OScanning r]) = fun l => l).
  { intro r. now destruct (eqb (b_scanning b) r). }
  destruct (thread_phase id (b_threads b)) eqn:P, s; try exact Z0.
  - unfold set_scanning. cbn [fst snd]. apply tinv_set_live; auto. now rewrite P. intro. now rewrite Q.
  - cbn [fst snd]. apply tinv_set_dead; auto.
  - unfold set_scanning. cbn [fst snd]. apply tinv_set_live; auto. now rewrite P. intro. now rewrite Q.
  - cbn [fst snd]. apply tinv_set_dead; auto.
  - destruct (push b HScanCompleted) as [b1 o] eqn:E. cbn [fst snd].
    assert (T : b_threads b1 = b_threads b) by (change b1 with (fst (b1, o)); rewrite <- E; apply push_threads).
    assert (F : forall l, fold_going o l = l) by (intro l; change o with (snd (b1, o)); rewrite <- E; apply push_out).
    rewrite T. assert (I1 : tinv b1 h) by (rewrite <- (app_nil_r h); now apply (tinv_same b)).
    rewrite <- T. apply tinv_set_dead; eauto.
  - cbn [fst snd]. apply tinv_set_dead; auto.
Qed.

Lemma tinv_step b e h : tinv b h -> tinv (fst (bg_step b e)) (h ++ snd (bg_step b e)).
Proof.
  intros I. assert (Z0 : tinv b (h ++ [])) by (apply (tinv_same b); auto).
  assert (G : forall c m p r, tinv (set_tasks b c m p r) (h ++ [])) by (intros; apply (tinv_same b); auto).
  destruct e; cbn [bg_step].
  - destruct (b_client b); [now apply tinv_push|exact Z0].
  - destruct (b_main b); [now apply tinv_push|exact Z0|exact Z0].
  - destruct (b_periodic b); [now apply tinv_push|exact Z0|exact Z0].
  - destruct (b_handler b); [|exact Z0]. destruct (b_queue b) as [|e q]; [destruct (has_sender b); [exact Z0|apply G]|].
    assert (I1 : tinv (set_queue b q) h) by (rewrite <- (app_nil_r h); now apply (tinv_same b)).
    destruct e as [[]|]; cbn [process_event].
    + apply (tinv_same (set_queue b q)); auto.
    + now apply tinv_scan.
    + unfold periodic_network_scan. destruct (_ <=? _)%Z; [now apply tinv_scan|]. apply (tinv_same (set_queue b q)); auto.
    + unfold scan_completed. cbn [set_queue b_scanner]. destruct (b_scanner b); apply (tinv_same (set_queue b q)); auto.
  - now apply tinv_thread.
  - apply G.
  - apply G.
  - apply G.
Qed.

(** The tasks. *)
Record hinv (x : host) (h : list bobs) : Prop := {
  hi_threads : tinv (h_bg x) h;
  hi_stopped : b_main (h_bg x) <> TkRunning -> b_client (h_bg x) = false;
  hi_up : h_run x <> ROver -> b_handler (h_bg x) = true;
  hi_over : h_run x = ROver -> b_handler (h_bg x) = false /\ b_client (h_bg x) = false /\ b_main (h_bg x) = TkEnded /\ b_periodic (h_bg x) = TkEnded;
  hi_ready : h_run x = RReady -> h_freed x = false
}.

Lemma stopped_step b e : (b_main b <> TkRunning -> b_client b = false) ->
  b_main (fst (bg_step b e)) <> TkRunning -> b_client (fst (bg_step b e)) = false.
Proof.
  intros H. destruct (step_tasks b e) as (A & _ & C). rewrite A, C. destruct e; auto.
  destruct (b_main b); cbn; intros; apply H; congruence.
Qed.

Lemma hinv_new f d : hinv (host_new f d) [].
Proof. split; cbn; try congruence; try tauto. split; cbn; constructor. Qed.

Lemma drop_threads b h : tinv b h -> tinv (drop_tasks b) (h ++ []).
Proof. intros I. apply (tinv_same b); auto. Qed.

Lemma over_step b e : b_handler b = false -> b_client b = false -> b_main b = TkEnded -> b_periodic b = TkEnded ->
  let b' := fst (bg_step b e) in b_handler b' = false /\ b_client b' = false /\ b_main b' = TkEnded /\ b_periodic b' = TkEnded.
Proof.
  intros A B C D. cbv zeta. destruct (step_tasks b e) as (M & P & K). rewrite M, P, K, B, C, D.
  assert (b_handler (fst (bg_step b e)) = false) as ->.
  { destruct e; cbn [bg_step]; rewrite ?B, ?C, ?D, ?A; auto; try exact A.
    unfold thread_step. destruct (thread_phase id (b_threads b)), s; auto. unfold push. rewrite A. exact A. }
  destruct e; auto.
Qed.

Lemma hinv_step x h e : hinv x h -> hinv (fst (host_step x e)) (h ++ snd (host_step x e)).
Proof.
  intros I. assert (S0 : hinv x (h ++ [])) by now rewrite app_nil_r.
  destruct I as [T S U O R]. destruct e as [|e| |]; cbn [host_step].
  - destruct (h_run x) eqn:Q; [|exact S0|exact S0]. rewrite R by reflexivity. cbn [fst snd]. rewrite app_nil_r.
    split; cbn; auto; try congruence. intros _. apply U. discriminate.
  - destruct (possible x e) eqn:Q; [|exact S0]. destruct (bg_step (h_bg x) e) as [b o] eqn:E. cbn [fst snd].
    assert (Eb : b = fst (bg_step (h_bg x) e)) by now rewrite E. assert (Eo : o = snd (bg_step (h_bg x) e)) by now rewrite E.
    split; cbn [h_bg h_run h_freed]; subst b o; auto.
    + now apply tinv_step.
    + now apply stopped_step.
    + intros H. apply step_handler. auto.
    + intros H. destruct (O H) as (? & ? & ? & ?). now apply over_step.
  - destruct (h_run x) eqn:Q; [exact S0| |exact S0]. destruct (b_main (h_bg x)) eqn:M; [exact S0|exact S0|]. cbn [fst snd].
    split; cbn; try congruence.
    + now apply drop_threads.
    + intros _. apply S. discriminate.
    + intros _. repeat split. apply S. discriminate.
  - cbn [fst snd]. destruct (h_freed x) eqn:F; [exact S0|]. rewrite app_nil_r.
    pose proof (tinv_step (h_bg x) EvClose h T) as T1. cbn [bg_step fst snd] in T1. rewrite app_nil_r in T1.
    unfold free. cbn [bg_step fst]. destruct (h_run x) eqn:Q.
    + split; cbn; try congruence.
      * rewrite <- (app_nil_r h). now apply drop_threads.
      * auto.
    + split; cbn; try congruence; auto; intros _; apply U; discriminate.
    + destruct (O eq_refl) as (A & B & C & D). split; cbn; try congruence; auto; intros _; rewrite C, D; auto.
Qed.

Lemma hinv_run es : forall x h, hinv x h -> hinv (fst (host_run x es)) (h ++ snd (host_run x es)).
Proof.
  induction es as [|e es IH]; intros x h I; cbn [host_run]; [now rewrite app_nil_r|].
  pose proof (hinv_step x h e I) as J. destruct (host_step x e) as [x1 o1]. cbn [fst snd] in J. specialize (IH x1 _ J).
  destruct (host_run x1 es) as [x2 o2]. cbn [fst snd] in *. now rewrite app_assoc.
Qed.
Lemma hosted_inv f d es x h : hosted f d es = (x, h) -> hinv x h.
Proof. intros E. pose proof (hinv_run es _ _ (hinv_new f d)) as I. fold (hosted f d es) in I. rewrite E in I. exact I. Qed.

(** A send fails only if it is the report of a scanner thread after the end of the runtime. *)
Lemma broken_only f d es x h e :
  hosted f d es = (x, h) -> In OBroken (snd (host_step x e)) ->
  h_run x = ROver /\ exists id t, e = RBg (EvThread id (SReport t)).
Proof.
  intros E B. pose proof (hosted_inv _ _ _ _ _ E) as [T S U O R]. destruct e as [|e| |]; cbn [host_step] in B.
  - destruct (h_run x); [|contradiction B|contradiction B]. destruct (h_freed x); contradiction B.
  - destruct (possible x e) eqn:Q; [|contradiction B]. destruct (bg_step (h_bg x) e) as [b o] eqn:F. cbn [snd] in B.
    assert (Eo : o = snd (bg_step (h_bg x) e)) by now rewrite F. subst o.
    assert (V : h_run x = ROver).
    { destruct (h_run x) eqn:V; [| |reflexivity]; exfalso; apply (step_whole (h_bg x) e); auto; apply U; discriminate. }
    split; [exact V|]. destruct (O V) as (A1 & A2 & A3 & A4). clear F. destruct e; cbn [bg_step] in B; rewrite ?A1, ?A2, ?A3, ?A4 in B; try contradiction B.
    unfold thread_step in B. destruct (thread_phase id (b_threads (h_bg x))), s; try contradiction B;
      try (unfold set_scanning in B; cbn [snd] in B; destruct (eqb _ _); [contradiction B|]; destruct B as [B|[]]; discriminate B);
      try (cbn in B; destruct B as [B|[]]; discriminate B).
    eauto.
  - destruct (h_run x), (b_main (h_bg x)); contradiction B.
  - contradiction B.
Qed.

(** Nothing happens any more if no scan is going on at the end. *)
Lemma dead_thread l id : map fst (filter (fun p : N * tphase => alive (snd p)) l) = [] -> alive (thread_phase id l) = false.
Proof.
  intros H. destruct (alive (thread_phase id l)) eqn:A; [|reflexivity]. apply phase_in in A as B.
  assert (In id (map fst (filter (fun p => alive (snd p)) l))) as C.
  { apply in_map_iff. exists (id, thread_phase id l). split; [reflexivity|]. apply filter_In. now split. }
  rewrite H in C. contradiction C.
Qed.
Lemma over_silent x h e : hinv x h -> h_run x = ROver -> scans_going h = [] ->
  snd (host_step x e) = [] /\ h_run (fst (host_step x e)) = ROver.
Proof.
  intros [T S U O R] V G. destruct (O V) as (A1 & A2 & A3 & A4). rewrite (ti_going _ _ T) in G.
  destruct e as [|e| |]; cbn [host_step]; rewrite ?V; auto.
  - destruct (possible x e) eqn:Q; [|auto]. destruct e; cbn [bg_step]; unfold possible in Q; rewrite ?V in Q; try discriminate Q; rewrite ?A2; auto.
    pose proof (dead_thread _ id G) as D. unfold thread_step. destruct (thread_phase id (b_threads (h_bg x))), s; try discriminate D; auto.
  - split; [reflexivity|]. cbn [fst]. destruct (h_freed x); [exact V|]. unfold free. now rewrite V.
Qed.
Lemma silent_after f d es x h :
  hosted f d es = (x, h) -> h_run x = ROver -> scans_going h = [] -> forall es', snd (host_run x es') = [].
Proof.
  intros E V G es'. pose proof (hosted_inv _ _ _ _ _ E) as I. clear E es. revert x I V.
  induction es' as [|e es' IH]; intros x I V; cbn [host_run]; [reflexivity|]. destruct (over_silent x h e I V G) as [A B].
  pose proof (hinv_step x h e I) as J. destruct (host_step x e) as [x1 o1]. cbn [fst snd] in *. subst o1. rewrite app_nil_r in J.
  specialize (IH x1 J B). destruct (host_run x1 es') as [x2 o2]. cbn [snd] in *. now subst o2.
Qed.

(** The end. *)
Lemma host_run_app es1 : forall x es2, host_run x (es1 ++ es2) =
  let '(x1, o1) := host_run x es1 in let '(x2, o2) := host_run x1 es2 in (x2, o1 ++ o2).
Proof.
  induction es1 as [|e es1 IH]; intros x es2; cbn [host_run app]; [now destruct (host_run x es2)|].
  destruct (host_step x e) as [x0 o0]. rewrite IH. destruct (host_run x0 es1) as [x1 o1]. destruct (host_run x1 es2) as [x2 o2].
  now rewrite app_assoc.
Qed.
Lemma end_step x e : h_run x <> ROver -> b_main (h_bg x) = TkRunning ->
  let x' := fst (host_step x e) in (h_run x' <> ROver /\ b_main (h_bg x') = TkRunning) \/ e = RBg EvClose \/ e = RFree.
Proof.
  intros V M. destruct e as [|e| |]; cbn [host_step]; auto.
  - left. destruct (h_run x) eqn:Q; [destruct (h_freed x)| |]; cbn; rewrite ?Q; try (split; congruence); auto.
  - destruct (possible x e) eqn:Q; [|auto]. destruct (step_tasks (h_bg x) e) as (A & _ & _).
    destruct (bg_step (h_bg x) e) as [b o]. cbn [fst] in A. cbn [fst h_run h_bg]. rewrite A. destruct e; auto.
    left. split; [exact V|]. now rewrite M.
  - left. rewrite M. destruct (h_run x) eqn:Q; cbn; rewrite Q; auto.
Qed.
Lemma only_if_told f d es x h : hosted f d es = (x, h) -> h_run x = ROver -> told_to_stop es.
Proof.
  intros E V. unfold hosted in E. assert (h_run (host_new f d) <> ROver /\ b_main (h_bg (host_new f d)) = TkRunning) as [A B] by (cbn; split; congruence).
  revert A B E. generalize (host_new f d) as y. revert h. induction es as [|e es IH]; intros h y A B E; cbn [host_run] in E.
  - inversion E. subst. contradiction.
  - destruct (end_step y e A B) as [(A1 & B1)|[ -> | -> ]].
    + destruct (host_step y e) as [y1 o1]. cbn [fst] in *. destruct (host_run y1 es) as [y2 o2] eqn:F. inversion E. subst.
      destruct (IH _ y1 A1 B1 F) as [K|K]; [left|right]; now right.
    + left. now left.
    + right. now left.
Qed.
Lemma closed_step b e : (b_client b = false -> b_main b <> TkRunning) ->
  b_client (fst (bg_step b e)) = false -> b_main (fst (bg_step b e)) <> TkRunning.
Proof.
  intros H. destruct (step_tasks b e) as (A & _ & C). rewrite A, C. destruct e; auto; intros K.
  - destruct (b_main b); discriminate.
  - specialize (H K). destruct (b_main b); cbn; congruence.
Qed.
Lemma closed_run es : forall x, (b_client (h_bg x) = false -> b_main (h_bg x) <> TkRunning) ->
  b_client (h_bg (fst (host_run x es))) = false -> b_main (h_bg (fst (host_run x es))) <> TkRunning.
Proof.
  induction es as [|e es IH]; intros x H; cbn [host_run]; [exact H|].
  assert (J : let x1 := fst (host_step x e) in b_client (h_bg x1) = false -> b_main (h_bg x1) <> TkRunning).
  { cbv zeta. destruct e as [|e| |]; cbn [host_step].
    - destruct (h_run x); auto. destruct (h_freed x); auto.
    - destruct (possible x e); [|exact H]. pose proof (closed_step (h_bg x) e H). now destruct (bg_step (h_bg x) e).
    - destruct (h_run x); auto. destruct (b_main (h_bg x)) eqn:M; cbn [fst h_bg]; [now rewrite M|now rewrite M|]. cbn. discriminate.
    - cbn [fst]. destruct (h_freed x); [exact H|]. unfold free. cbn [bg_step fst].
      destruct (h_run x); cbn; try discriminate; destruct (b_main (h_bg x)); discriminate. }
  destruct (host_step x e) as [x1 o1]. cbv zeta in J. cbn [fst] in J. specialize (IH x1 J). now destruct (host_run x1 es).
Qed.
Lemma can_end f d es x h : hosted f d es = (x, h) -> h_run x = RRunning -> b_client (h_bg x) = false ->
  let x' := fst (hosted f d (es ++ [RBg EvMain; REnd])) in
  h_run x' = ROver /\ b_main (h_bg x') = TkEnded /\ b_periodic (h_bg x') = TkEnded /\ b_handler (h_bg x') = false.
Proof.
  intros E V C. assert (M : b_main (h_bg x) <> TkRunning).
  { pose proof (closed_run es (host_new f d)) as K. fold (hosted f d es) in K. rewrite E in K. apply K; [cbn; discriminate|exact C]. }
  unfold hosted in *. rewrite host_run_app, E. cbn [host_run host_step]. unfold possible. rewrite V. cbn [bg_step].
  cbn [fst snd h_run h_bg set_tasks b_main]. destruct (b_main (h_bg x)); [congruence| |]; cbn; repeat split.
Qed.

(** A scan that is going on when the client is stopped. *)
Definition left_behind : list rev :=
  [RStart; RBg (EvApi CScan); RBg (EvHandle 1); RBg (EvThread 0 SBegin); RFree; RBg EvMain; REnd].
Lemma sends_refuted : exists es, In OBroken (snd (hosted true true es)).
Proof. exists (left_behind ++ [RBg (EvThread 0 SFinish); RBg (EvThread 0 (SReport 2))]). vm_compute. auto 10. Qed.
Lemma callback_refuted :
  exists es es' x h, hosted true true es = (x, h) /\ h_run x = ROver /\ h_freed x = true /\
    existsb is_callback (snd (host_run x es')) = true /\ In OBroken (snd (host_run x es')).
Proof.
  exists left_behind, [RBg (EvThread 0 SFinish); RBg (EvThread 0 (SReport 2))]. do 2 eexists. split; [reflexivity|].
  vm_compute. auto 10.
Qed.
