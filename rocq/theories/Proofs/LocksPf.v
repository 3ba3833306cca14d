(** The mutexes are always taken in the same order, so no thread is blocked for ever. *)
From Coq Require Import Arith List Bool Lia.
From Verif.Model Require Import Locks.
From Verif.Spec Require Import LocksSpec.
Import ListNotations.

Definition rank (l : lock) : nat :=
  match l with LConn _ => 0 | LSess _ => 1 | LApp => 2 | LCapture => 3 | LLog => 4 | LTable _ => 5 end.
Definition below (h : list lock) (r : nat) : Prop := forall x, In x h -> rank x < r.

(** A program that starts with the locks [h] and takes further ones in order. *)
Fixpoint ordered (h : list lock) (p : list act) : Prop :=
  match p with
  | [] => h = []
  | Acq l :: p => below h (rank l) /\ ordered (l :: h) p
  | Rel l :: p => exists h', h = l :: h' /\ ordered h' p
  | Call c :: p => (c = CListener -> h = []) /\ ordered h p
  end.

(** Pieces of programs: [inner r p] takes locks of rank [r] and above only and calls no listener; [outer p] is run
    without locks. *)
Definition inner (r : nat) (p : list act) : Prop := forall h k, below h r -> ordered h k -> ordered h (p ++ k).
Definition outer (p : list act) : Prop := forall k, ordered [] k -> ordered [] (p ++ k).

Lemma inner_outer r p : inner r p -> outer p.
Proof. intros H k K. apply H; [intros x []|exact K]. Qed.
Lemma inner_nil r : inner r [].
Proof. intros h k _ K. exact K. Qed.
Lemma inner_app r p q : inner r p -> inner r q -> inner r (p ++ q).
Proof. intros P Q h k B K. rewrite <- app_assoc. auto. Qed.
Lemma inner_weaken r r' p : r <= r' -> inner r' p -> inner r p.
Proof. intros L H h k B K. apply H; [|exact K]. intros x X. specialize (B x X). lia. Qed.
Lemma inner_locked r l p : r <= rank l -> inner (S (rank l)) p -> inner r (locked l p).
Proof.
  intros L H h k B K. unfold locked. cbn [app ordered]. split; [intros x X; specialize (B x X); lia|].
  rewrite <- app_assoc. apply H.
  - intros x [<-|X]; [lia|]. specialize (B x X). lia.
  - cbn [app ordered]. now exists h.
Qed.
Lemma inner_call r c : c <> CListener -> inner r [Call c].
Proof. intros C h k B K. cbn [app ordered]. split; [congruence|exact K]. Qed.
Lemma inner_times r n p : inner r p -> inner r (times n p).
Proof. intros H. unfold times. induction n as [|n IH]; cbn; [apply inner_nil|]. now apply inner_app. Qed.
Lemma inner_when r b p : inner r p -> inner r (when b p).
Proof. intros H. destruct b; [exact H|apply inner_nil]. Qed.
Lemma inner_flat {A} r (f : A -> list act) l : (forall x, inner r (f x)) -> inner r (flat_map f l).
Proof. intros H. induction l as [|x l IH]; cbn; [apply inner_nil|]. now apply inner_app. Qed.
Lemma outer_nil : outer [].
Proof. intros k K. exact K. Qed.
Lemma outer_app p q : outer p -> outer q -> outer (p ++ q).
Proof. intros P Q k K. rewrite <- app_assoc. auto. Qed.
Lemma outer_call c : outer [Call c].
Proof. intros k K. cbn [app ordered]. auto. Qed.
Lemma outer_times n p : outer p -> outer (times n p).
Proof. intros H. unfold times. induction n as [|n IH]; cbn; [apply outer_nil|]. now apply outer_app. Qed.
Lemma outer_when b p : outer p -> outer (when b p).
Proof. intros H. destruct b; [exact H|apply outer_nil]. Qed.
Lemma outer_flat {A} (f : A -> list act) l : (forall x, outer (f x)) -> outer (flat_map f l).
Proof. intros H. induction l as [|x l IH]; cbn; [apply outer_nil|]. now apply outer_app. Qed.

(** Every function keeps to the order. *)
Lemma log_inner : inner 4 log_line.
Proof. apply inner_locked; [cbn; lia|]. apply inner_call. discriminate. Qed.
Lemma table_inner t : inner 5 (table_op t).
Proof. apply inner_locked; [cbn; lia|apply inner_nil]. Qed.
Lemma app_inner : inner 2 app_op.
Proof. apply inner_locked; [cbn; lia|apply inner_nil]. Qed.
Lemma sess_inner s : inner 1 (sess_op s).
Proof. apply inner_locked; [cbn; lia|apply inner_nil]. Qed.
Lemma logtable_inner t : inner 4 (log_table t).
Proof.
  apply inner_locked; [cbn; lia|]. apply inner_app; [apply table_inner|]. apply inner_call. discriminate.
Qed.
Ltac low := eapply inner_weaken; [|first [apply log_inner | apply logtable_inner | apply table_inner | apply app_inner | apply sess_inner]]; lia.
Ltac inn := repeat first [ low | apply inner_app | apply inner_times | apply inner_when | apply inner_nil
  | (apply inner_locked; [cbn [rank]; lia|cbn [rank]]) | (apply inner_call; discriminate) ].
Lemma save_inner t copy err : inner 3 (save t copy err).
Proof. unfold save. inn. Qed.
Lemma reset_inner d t c e : inner 2 (reset_service_table d t c e).
Proof. unfold reset_service_table. inn. Qed.
Lemma update_inner n t c b e : inner 2 (update_service_table n t c b e).
Proof. unfold update_service_table. inn. Qed.
Lemma tls_inner n : inner 2 (get_tls_connector n).
Proof. unfold get_tls_connector. apply inner_locked; [cbn; lia|]. change (Call CStorage :: times n log_line) with ([Call CStorage] ++ times n log_line). cbn [rank]. inn. Qed.
Lemma new_inner t : inner 2 (client_new t).
Proof. unfold client_new. inn. Qed.
Lemma handle_inner h : inner 1 (handle h).
Proof.
  destruct h; cbn [handle]; unfold create_hup; try destruct s; try destruct known; try destruct open; cbn [when]; inn.
Qed.
Lemma manager_inner ss b : inner 1 (manager_poll ss b).
Proof. unfold manager_poll, create_hup. apply inner_app; [apply inner_flat; intros; low|]. inn. Qed.
Lemma poll_inner c l : inner 0 (connection_poll c l).
Proof.
  unfold connection_poll. apply inner_locked; [cbn; lia|]. cbn [rank]. apply inner_flat. intros x. apply inner_app; [apply handle_inner|apply manager_inner].
Qed.
Lemma tick_inner c t a b d : inner 0 (watchdog_tick c t a b d).
Proof. unfold watchdog_tick. inn. Qed.
Lemma state_outer b e n : outer (set_connection_state b e n).
Proof.
  unfold set_connection_state. apply outer_app; [apply (inner_outer 2); inn|]. apply outer_when. apply outer_app; [apply outer_times, outer_call|].
  apply (inner_outer 2). apply app_inner.
Qed.
Lemma scanning_outer b n : outer (set_scanning b n).
Proof.
  unfold set_scanning. apply outer_app; [apply (inner_outer 2), app_inner|]. apply outer_when. apply outer_app; [apply outer_times, outer_call|].
  apply (inner_outer 2). apply app_inner.
Qed.
Lemma api_outer a : outer (api_acts a).
Proof. apply (inner_outer 2). destruct a; cbn [api_acts]; inn. Qed.
Lemma acts_outer f : outer (acts f).
Proof.
  destruct f; cbn [acts].
  - apply api_outer.
  - apply (inner_outer 2). unfold main_start. inn.
  - unfold main_connect. apply outer_app; [apply (inner_outer 4), log_inner|]. apply outer_app; [apply state_outer|].
    apply (inner_outer 2). apply inner_app; [apply tls_inner|apply new_inner].
  - unfold main_result. apply outer_app; [apply (inner_outer 4), log_inner|]. apply outer_app; [apply state_outer|].
    apply (inner_outer 2). inn.
  - apply (inner_outer 2). unfold client_started. inn.
  - apply (inner_outer 0), poll_inner.
  - apply (inner_outer 0), tick_inner.
  - apply (inner_outer 0). unfold get_redirect. inn.
  - apply (inner_outer 0). unfold connection_drop. apply inner_app; [inn|]. apply inner_flat. intros s. inn.
  - apply (inner_outer 1), sess_inner.
  - apply (inner_outer 2), reset_inner.
  - apply (inner_outer 2), app_inner.
  - apply (inner_outer 2). unfold handler_completed. inn.
  - unfold scanner_thread. apply outer_app; [apply (inner_outer 2); inn|]. apply outer_app; [apply scanning_outer|].
    apply outer_app; [apply (inner_outer 4), log_inner|].
    apply outer_app; [apply outer_flat; intros [|]; apply (inner_outer 2); inn|]. apply outer_app; [|apply scanning_outer].
    apply (inner_outer 2). destruct found as [[[[n copy] b] e]|]; [|inn]. apply inner_app; [apply update_inner|]. inn.
Qed.
Lemma program_ordered fs : ordered [] (flat_map acts fs).
Proof. rewrite <- (app_nil_r (flat_map acts fs)). apply (outer_flat acts fs acts_outer). reflexivity. Qed.

(** Lists of threads. *)
Lemma lock_eqb_spec a b : lock_eqb a b = true <-> a = b.
Proof. destruct a, b; cbn; try rewrite Nat.eqb_eq; split; congruence. Qed.
Lemma holds_in l t : holds l t = true <-> In l (held t).
Proof.
  unfold holds. rewrite existsb_exists. split.
  - intros (x & X & E). apply lock_eqb_spec in E. now subst.
  - intros H. exists l. split; [exact H|]. now apply lock_eqb_spec.
Qed.
Lemma nth_set {A} i j (x : A) l : nth_error (set_nth i x l) j = if Nat.eqb i j then match nth_error l j with Some _ => Some x | None => None end else nth_error l j.
Proof.
  revert i j. induction l as [|y l IH]; intros [|i] [|j]; try reflexivity; cbn.
  - now destruct (Nat.eqb i j).
  - apply IH.
Qed.
Lemma release_head l h : release l (l :: h) = h.
Proof. cbn. now rewrite (proj2 (lock_eqb_spec l l) eq_refl). Qed.

Definition inv (s : list thread) : Prop :=
  (forall i t, nth_error s i = Some t -> ordered (held t) (todo t)) /\
  (forall i j t u l, nth_error s i = Some t -> nth_error s j = Some u -> In l (held t) -> In l (held u) -> i = j).

Lemma below_head h r : below h r -> forall l, In l h -> rank l < r.
Proof. auto. Qed.

Definition free (l : lock) (s : list thread) : Prop := forall j u, nth_error s j = Some u -> ~ In l (held u).
Lemma free_spec l s : existsb (holds l) s = false <-> free l s.
Proof.
  split.
  - intros H j u J K. apply nth_error_In in J. assert (E : existsb (holds l) s = true) by (apply existsb_exists; exists u; split; [exact J|now apply holds_in]).
    congruence.
  - intros H. destruct (existsb (holds l) s) eqn:E; [|reflexivity]. apply existsb_exists in E as (u & U & K). apply In_nth_error in U as [j J].
    apply holds_in in K. destruct (H j u J K).
Qed.

Section May.
  Variable may : cb -> list act -> Prop.
  (** Code of the application that runs with locks held does not take any. *)
  Hypothesis quiet : forall c q, c <> CListener -> may c q -> q = [].
  Hypothesis able : forall c, may c [].
  Hypothesis listener : forall q, may CListener q -> outer q.

  Lemma step_inv i q s s' : inv s -> (forall c, calls i s c -> may c q) -> step i q s = Some s' -> inv s'.
  Proof.
    intros [O X] M H. unfold step in H. destruct (nth_error s i) as [t|] eqn:T; [|discriminate].
    pose proof (O i t T) as Ot. destruct (todo t) as [|[l|l|c] p] eqn:P; cbn [ordered] in Ot; [discriminate| | |].
    - destruct (existsb (holds l) s) eqn:F; [discriminate|]. injection H as <-. apply free_spec in F. split.
      + intros j u J. rewrite nth_set in J. destruct (Nat.eqb_spec i j) as [<-|N]; [|eauto]. rewrite T in J. injection J as <-. cbn [todo held]. apply Ot.
      + intros j k u v m J K U V. rewrite nth_set in J, K. destruct (Nat.eqb_spec i j) as [<-|N], (Nat.eqb_spec i k) as [<-|N']; [reflexivity| | |].
        * rewrite T in J. injection J as <-. cbn [held] in U. destruct U as [<-|U]; [destruct (F _ _ K V)|eauto].
        * rewrite T in K. injection K as <-. cbn [held] in V. destruct V as [<-|V]; [destruct (F _ _ J U)|eauto].
        * eauto.
    - injection H as <-. destruct Ot as (h' & E & Ot). split.
      + intros j u J. rewrite nth_set in J. destruct (Nat.eqb_spec i j) as [<-|N]; [|eauto]. rewrite T in J. injection J as <-. cbn [todo held].
        rewrite E, release_head. exact Ot.
      + assert (Sub : forall m, In m (release l (held t)) -> In m (held t)) by (intros m; rewrite E, release_head; now right).
        intros j k u v m J K U V. rewrite nth_set in J, K. destruct (Nat.eqb_spec i j) as [<-|N], (Nat.eqb_spec i k) as [<-|N']; [reflexivity| | |].
        * rewrite T in J. injection J as <-. cbn [held] in U. eauto.
        * rewrite T in K. injection K as <-. cbn [held] in V. eauto.
        * eauto.
    - injection H as <-. destruct Ot as [L Ot]. split.
      + intros j u J. rewrite nth_set in J. destruct (Nat.eqb_spec i j) as [<-|N]; [|eauto]. rewrite T in J. injection J as <-. cbn [todo held].
        assert (Mc : may c q) by (apply M; exists t, p; auto).
        destruct c; [rewrite (L eq_refl) in *; now apply listener| |];
          (assert (q = []) as -> by (eapply quiet; [|exact Mc]; discriminate); exact Ot).
      + intros j k u v m J K U V. rewrite nth_set in J, K. destruct (Nat.eqb_spec i j) as [<-|N], (Nat.eqb_spec i k) as [<-|N']; [reflexivity| | |].
        * rewrite T in J. injection J as <-. cbn [held] in U. eauto.
        * rewrite T in K. injection K as <-. cbn [held] in V. eauto.
        * eauto.
  Qed.
  Lemma reach_inv s s' : inv s -> reach may s s' -> inv s'.
  Proof. intros I R. induction R; [exact I|]. eapply step_inv; eauto. Qed.
  Lemma reach_trans a b c : reach may a b -> reach may b c -> reach may a c.
  Proof. intros H K. induction K; [exact H|]. eapply reach_step; eauto. Qed.

  (** Runs in which only threads holding a lock of rank [r] or more take steps. *)
  Inductive run (r : nat) (s : list thread) : list thread -> Prop :=
  | run_here : run r s s
  | run_step i q s1 s2 t l : run r s s1 -> nth_error s1 i = Some t -> In l (held t) -> r <= rank l ->
      (forall c, calls i s1 c -> may c q) -> step i q s1 = Some s2 -> run r s s2.
  Lemma run_trans r a b c : run r a b -> run r b c -> run r a c.
  Proof. intros H K. induction K; [exact H|]. eapply run_step; eauto. Qed.
  Lemma run_weaken r r' a b : r <= r' -> run r' a b -> run r a b.
  Proof. intros L H. induction H; [constructor|]. eapply run_step; eauto. lia. Qed.
  Lemma run_reach r a b : run r a b -> reach may a b.
  Proof. intros H. induction H; [constructor|]. eapply reach_step; eauto. Qed.
  Lemma step_other i q s s' j : step i q s = Some s' -> i <> j -> nth_error s' j = nth_error s j.
  Proof.
    unfold step. destruct (nth_error s i) as [t|]; [|discriminate]. intros H N. rewrite <- Nat.eqb_neq in N.
    destruct (todo t) as [|[l|l|c] p]; [discriminate| | |].
    - destruct (existsb (holds l) s); [discriminate|]. injection H as <-. now rewrite nth_set, N.
    - injection H as <-. now rewrite nth_set, N.
    - injection H as <-. now rewrite nth_set, N.
  Qed.
  Lemma run_untouched r a b j t : run r a b -> nth_error a j = Some t -> below (held t) r -> nth_error b j = Some t.
  Proof.
    intros H J B. induction H as [|i q s1 s2 u l H IH I L R M S]; [exact J|]. rewrite (step_other _ _ _ _ j S); [exact IH|].
    intros ->. rewrite IH in I. injection I as <-. specialize (B l L). lia.
  Qed.
  Lemma run_inv r a b : inv a -> run r a b -> inv b.
  Proof. intros I H. eapply reach_inv; [exact I|]. eapply run_reach; eauto. Qed.

  Lemma ranks l : rank l < 6.
  Proof. destruct l; cbn; lia. Qed.

  (** A lock that is held can be made free by the threads above it. *)
  Lemma drive : forall n l s, 6 - rank l <= n -> inv s -> exists s', run (rank l) s s' /\ free l s'.
  Proof.
    induction n as [|n IH]; intros l s L I; [pose proof (ranks l); lia|].
    destruct (existsb (holds l) s) eqn:F; [|exists s; split; [constructor|now apply free_spec]].
    apply existsb_exists in F as (t & T & K). apply In_nth_error in T as [j J]. apply holds_in in K.
    remember (length (todo t)) as m eqn:Hm. revert t s J K I Hm. induction m as [m IHm] using lt_wf_ind. intros t s J K I Hm.
    pose proof (proj1 I j t J) as O. destruct (todo t) as [|[l'|l'|c] p] eqn:P; cbn [ordered] in O.
    - rewrite O in K. destruct K.
    - destruct O as [B O]. pose proof (B l K) as Lr.
      destruct (IH l' s ltac:(lia) I) as (s1 & R1 & F1).
      pose proof (run_untouched _ _ _ j t R1 J B) as J1. pose proof (run_inv _ _ _ I R1) as I1.
      set (t1 := {| todo := p; held := l' :: held t |}).
      assert (S1 : step j [] s1 = Some (set_nth j t1 s1)).
      { unfold step. rewrite J1, P. rewrite (proj2 (free_spec l' s1) F1). reflexivity. }
      assert (M1 : forall c, calls j s1 c -> may c []) by (intros; apply able).
      pose proof (step_inv _ _ _ _ I1 M1 S1) as I2.
      assert (J2 : nth_error (set_nth j t1 s1) j = Some t1) by (rewrite nth_set, Nat.eqb_refl, J1; reflexivity).
      destruct (IHm (length p) ltac:(cbn in Hm; lia) t1 _ J2 (or_intror K) I2 eq_refl) as (s3 & R3 & F3). exists s3. split; [|exact F3].
      eapply run_trans; [|exact R3]. eapply run_step; [eapply run_weaken; [|exact R1]; lia|exact J1|exact K|apply le_n|exact M1|exact S1].
    - destruct O as (h' & E & O). set (t1 := {| todo := p; held := release l' (held t) |}).
      assert (S1 : step j [] s = Some (set_nth j t1 s)) by (unfold step; rewrite J, P; reflexivity).
      assert (M1 : forall c, calls j s c -> may c []) by (intros; apply able).
      pose proof (step_inv _ _ _ _ I M1 S1) as I2.
      assert (J2 : nth_error (set_nth j t1 s) j = Some t1) by (rewrite nth_set, Nat.eqb_refl, J; reflexivity).
      assert (R1 : run (rank l) s (set_nth j t1 s)) by (eapply run_step; [constructor|exact J|exact K|apply le_n|exact M1|exact S1]).
      destruct (existsb (holds l) (set_nth j t1 s)) eqn:F; [|exists (set_nth j t1 s); split; [exact R1|now apply free_spec]].
      apply existsb_exists in F as (u & U & K2). apply In_nth_error in U as [k U]. apply holds_in in K2.
      assert (N : j = k).
      { destruct (Nat.eq_dec j k) as [N|N]; [exact N|]. rewrite nth_set in U. apply Nat.eqb_neq in N. rewrite N in U. exact (proj2 I j k t u l J U K K2). }
      subst k. rewrite J2 in U. injection U as <-.
      destruct (IHm (length p) ltac:(cbn in Hm; lia) t1 _ J2 K2 I2 eq_refl) as (s3 & R3 & F3). exists s3. split; [|exact F3].
      eapply run_trans; eauto.
    - destruct O as [C O]. set (t1 := {| todo := p; held := held t |}).
      assert (S1 : step j [] s = Some (set_nth j t1 s)) by (unfold step; rewrite J, P; reflexivity).
      assert (M1 : forall c, calls j s c -> may c []) by (intros; apply able).
      pose proof (step_inv _ _ _ _ I M1 S1) as I2.
      assert (J2 : nth_error (set_nth j t1 s) j = Some t1) by (rewrite nth_set, Nat.eqb_refl, J; reflexivity).
      destruct (IHm (length p) ltac:(cbn in Hm; lia) t1 _ J2 K I2 eq_refl) as (s3 & R3 & F3). exists s3. split; [|exact F3].
      eapply run_trans; [|exact R3]. eapply run_step; [constructor|exact J|exact K|apply le_n|exact M1|exact S1].
  Qed.

  Lemma progress s i t : inv s -> nth_error s i = Some t -> todo t <> [] ->
    exists s', reach may s s' /\ nth_error s' i = Some t /\ can_step may i s'.
  Proof.
    intros I T P. destruct (todo t) as [|[l|l|c] p] eqn:E; [congruence| | |].
    - pose proof (proj1 I i t T) as O. rewrite E in O. cbn [ordered] in O. destruct O as [B O].
      destruct (drive 6 l s ltac:(lia) I) as (s1 & R & F). pose proof (run_untouched _ _ _ i t R T B) as T1.
      exists s1. split; [eapply run_reach; eauto|]. split; [exact T1|]. exists []. eexists. split; [intros; apply able|].
      unfold step. rewrite T1, E, (proj2 (free_spec l s1) F). reflexivity.
    - exists s. split; [constructor|]. split; [exact T|]. exists []. eexists. split; [intros; apply able|]. unfold step. rewrite T, E. reflexivity.
    - exists s. split; [constructor|]. split; [exact T|]. exists []. eexists. split; [intros; apply able|]. unfold step. rewrite T, E. reflexivity.
  Qed.
End May.

Lemma start_inv fss : inv (start fss).
Proof.
  unfold start. split.
  - intros i t H. apply nth_error_In, in_map_iff in H as (fs & <- & _). apply program_ordered.
  - intros i j t u l H _ K _. apply nth_error_In, in_map_iff in H as (fs & <- & _). destruct K.
Qed.
Lemma polite_quiet c q : c <> CListener -> polite c q -> q = [].
Proof. destruct c; [congruence| |]; intros _ H; exact H. Qed.
Lemma polite_able c : polite c [].
Proof. destruct c; [|reflexivity|reflexivity]. now exists []. Qed.
Lemma polite_listener q : polite CListener q -> outer q.
Proof. intros [fs ->]. apply outer_flat, api_outer. Qed.

Lemma client_progress fss s i t : reach polite (start fss) s -> nth_error s i = Some t -> todo t <> [] ->
  exists s', reach polite s s' /\ nth_error s' i = Some t /\ can_step polite i s'.
Proof.
  intros R T P. eapply progress; eauto using polite_quiet, polite_able, polite_listener.
  eapply reach_inv; eauto using polite_quiet, polite_listener, start_inv.
Qed.
Lemma client_exclusive fss s i j t u l : reach polite (start fss) s -> nth_error s i = Some t -> nth_error s j = Some u ->
  In l (held t) -> In l (held u) -> i = j.
Proof.
  intros R. apply (proj2 (reach_inv _ polite_quiet polite_listener _ _ (start_inv fss) R)).
Qed.
Lemma client_clean fss s i t : reach polite (start fss) s -> nth_error s i = Some t -> todo t = [] -> held t = [].
Proof.
  intros R T P. pose proof (proj1 (reach_inv _ polite_quiet polite_listener _ _ (start_inv fss) R) i t T) as O. now rewrite P in O.
Qed.
Lemma client_listener fss s i t p : reach polite (start fss) s -> nth_error s i = Some t -> todo t = Call CListener :: p -> held t = [].
Proof.
  intros R T P. pose proof (proj1 (reach_inv _ polite_quiet polite_listener _ _ (start_inv fss) R) i t T) as O. rewrite P in O. now apply O.
Qed.

(** Executable runs for examples. *)
Fixpoint play (sched : list (nat * list act)) (s : list thread) : option (list thread) :=
  match sched with
  | [] => Some s
  | (i, q) :: sched => match step i q s with Some s' => play sched s' | None => None end
  end.
Definition nexts (i : nat) (s : list thread) : option cb :=
  match nth_error s i with Some t => match todo t with Call c :: _ => Some c | _ => None end | None => None end.
Lemma nexts_spec i s c : calls i s c -> nexts i s = Some c.
Proof. intros (t & p & T & P). unfold nexts. now rewrite T, P. Qed.
Fixpoint good (may : cb -> list act -> Prop) (sched : list (nat * list act)) (s : list thread) : Prop :=
  match sched with
  | [] => True
  | (i, q) :: sched =>
      match nexts i s with Some c => may c q | None => True end /\
      match step i q s with Some s' => good may sched s' | None => True end
  end.
Lemma play_reach may : forall sched s s1 s2, reach may s s1 -> good may sched s1 -> play sched s1 = Some s2 -> reach may s s2.
Proof.
  induction sched as [|[i q] sched IH]; intros s s1 s2 R G P; cbn in *; [congruence|].
  destruct G as [A B]. destruct (step i q s1) as [s'|] eqn:S; [|discriminate]. apply (IH s s' s2); auto.
  eapply reach_step; eauto. intros c C. now rewrite (nexts_spec _ _ _ C) in A.
Qed.
Lemma stuck_reach may s : (forall i q, step i q s = None) -> forall s', reach may s s' -> s' = s.
Proof. intros H s' R. induction R as [|i q s1 s2 R IH M S]; [reflexivity|]. subst. now rewrite H in S. Qed.

(** The storage asks the client for its identifier while its state is saved. *)
Definition storage_threads : list (list fn) := [[FMainConnect true false 0 0 0]].
Definition storage_run : list (nat * list act) := [(0, []); (0, []); (0, []); (0, []); (0, api_acts ApiGet)].
Lemma storage_stuck : exists fss s, reach talking_storage (start fss) s /\ busy 0 s /\
  forall s', reach talking_storage s s' -> ~ can_step talking_storage 0 s'.
Proof.
  exists storage_threads. destruct (play storage_run (start storage_threads)) as [s|] eqn:P; [|vm_compute in P; discriminate].
  exists s. split; [|split].
  - apply (play_reach _ storage_run _ (start storage_threads)); [constructor| |exact P].
    cbn. repeat split; auto. exists [ApiGet]. reflexivity.
  - vm_compute in P. injection P as <-. eexists. split; [reflexivity|]. discriminate.
  - intros s' R. assert (St : forall i q, step i q s = None).
    { vm_compute in P. injection P as <-. intros [|[|i]] q; reflexivity. }
    rewrite (stuck_reach _ _ St _ R). intros (q & s2 & _ & E). rewrite St in E. discriminate.
Qed.

(** The log callback of one thread asks the client for its identifier while another thread logs with the application
    context held. *)
Definition logger_threads : list (list fn) := [[FStarted]; [FReset 0 1 2 true]].
Definition logger_run : list (nat * list act) :=
  map (fun i => (i, [])) [0; 0; 0; 0; 0; 0; 0] ++ [(0, api_acts ApiGet)] ++ map (fun i => (i, [])) [1; 1; 1; 1; 1; 1; 1; 1].
Lemma logger_stuck : exists fss s, reach talking_logger (start fss) s /\ busy 0 s /\ busy 1 s /\
  forall s' i, reach talking_logger s s' -> ~ can_step talking_logger i s'.
Proof.
  exists logger_threads. destruct (play logger_run (start logger_threads)) as [s|] eqn:P; [|vm_compute in P; discriminate].
  exists s. split; [|split; [|split]].
  - apply (play_reach _ logger_run _ (start logger_threads)); [constructor| |exact P].
    cbn. repeat split; auto. exists [ApiGet]. reflexivity.
  - vm_compute in P. injection P as <-. eexists. split; [reflexivity|]. discriminate.
  - vm_compute in P. injection P as <-. eexists. split; [reflexivity|]. discriminate.
  - intros s' i R. assert (St : forall i q, step i q s = None).
    { vm_compute in P. injection P as <-. intros [|[|[|j]]] q; reflexivity. }
    rewrite (stuck_reach _ _ St _ R). intros (q & s2 & _ & E). rewrite St in E. discriminate.
Qed.
