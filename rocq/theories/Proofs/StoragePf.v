(** Proofs about the files of the client. *)
From Coq Require Import String NArith ZArith ZifyBool ZifyNat ZifyN List Bool Lia.
From Verif.Model Require Import Bytes Utf8 Text MainTask Storage.
From Verif.Spec Require Import StorageSpec.
From Verif.Proofs Require Import BytesFacts TextProofs.
Import ListNotations.
Local Open Scope N_scope.

(** ** Path files *)
Lemma file_lines_text : forall t acc r, ~ In 10 t -> file_lines acc (t ++ r) = file_lines (rev t ++ acc) r.
Proof.
  induction t as [|c t IH]; intros acc r H; [reflexivity|]. cbn [app file_lines rev]. destruct (N.eqb_spec c 10) as [E|E]; [exfalso; apply H; now left|].
  rewrite IH by (intros X; apply H; now right). rewrite <- app_assoc. reflexivity.
Qed.
Lemma file_lines_end : forall x r, plain_line x -> file_lines [] (line_of x ++ r) = fst x :: file_lines [] r.
Proof.
  intros [t cr] r [H1 H2]. cbn [fst snd] in *. unfold line_of. cbn [fst snd]. rewrite <- app_assoc. rewrite file_lines_text by exact H1.
  rewrite app_nil_r. destruct cr.
  - cbn [app file_lines]. change (13 =? 10) with false. change (10 =? 10) with true. cbv iota. unfold strip_cr. rewrite rev_involutive. now rewrite rev_involutive.
  - cbn [app file_lines]. change (10 =? 10) with true. cbv iota. rewrite rev_involutive. f_equal. unfold strip_cr.
    destruct (rev t) as [|c s] eqn:E; [reflexivity|]. destruct (N.eq_dec c 13) as [D|D].
    + exfalso. subst c. apply (H2 eq_refl (rev s)). rewrite <- (rev_involutive t), E. reflexivity.
    + destruct c as [|c]; [reflexivity|]. do 4 (destruct c as [c|c|]; try reflexivity). congruence.
Qed.
Lemma file_lines_last : forall t, ~ In 10 t -> file_lines [] t = match t with [] => [] | _ => [t] end.
Proof.
  intros t H. rewrite <- (app_nil_r t) at 1. rewrite file_lines_text by exact H. rewrite app_nil_r. cbn [file_lines].
  destruct (rev t) as [|c s] eqn:E.
  - apply (f_equal (@rev N)) in E. rewrite rev_involutive in E. now subst t.
  - rewrite <- E, rev_involutive. destruct t; [discriminate E|reflexivity].
Qed.
Lemma file_lines_content : forall l last, Forall plain_line l -> ~ In 10 last -> file_lines [] (content l last) = texts l last.
Proof.
  intros l last F L. unfold content, texts. induction F as [|x l X F IH]; [now apply file_lines_last|]. cbn [map List.concat]. rewrite <- app_assoc.
  rewrite file_lines_end by exact X. cbn [app]. f_equal. exact IH.
Qed.
Lemma starts_hash : forall t, starts_with [35] t = comment t.
Proof.
  intros [|c t]; [reflexivity|]. cbn [starts_with comment]. destruct (N.eqb_spec 35 c) as [E|E].
  - subst c. destruct t; reflexivity.
  - cbn [andb]. destruct c as [|c]; [reflexivity|]. do 6 (destruct c as [c|c|]; try reflexivity). congruence.
Qed.
Lemma keep_paths_spec : forall l, keep_paths l = if forallb utf8_valid l then Some (filter (fun t => negb (comment t)) l) else None.
Proof.
  induction l as [|p l IH]; [reflexivity|]. cbn [keep_paths forallb filter]. destruct (utf8_valid p); cbn [andb]; [|reflexivity]. rewrite IH, starts_hash.
  destruct (forallb utf8_valid l); [|reflexivity]. cbn [option_map]. destruct (comment p); reflexivity.
Qed.
Lemma paths_read : forall l last, Forall plain_line l -> ~ In 10 last ->
  load_paths_file (Some (content l last)) =
    if forallb utf8_valid (texts l last) then Some (filter (fun t => negb (comment t)) (texts l last)) else None.
Proof. intros l last F L. cbn [load_paths_file]. rewrite file_lines_content by assumption. apply keep_paths_spec. Qed.
(** Every file is like this. *)
Lemma every_content : forall d, exists l last, d = content l last /\ Forall plain_line l /\ ~ In 10 last.
Proof.
  intros d. assert (H : forall d acc, ~ In 10 acc -> exists l last, rev acc ++ d = content l last /\ Forall plain_line l /\ ~ In 10 last); [|exact (H d [] (fun x => x))].
  clear d. induction d as [|c d IH]; intros acc A.
  - exists [], (rev acc). rewrite app_nil_r. split; [reflexivity|]. split; [constructor|]. now rewrite <- in_rev.
  - destruct (N.eq_dec c 10) as [E|E].
    + subst c. destruct (IH [] (fun x => x)) as [l [last [D [F L]]]]. cbn [rev app] in D.
      destruct acc as [|a acc]; [|destruct (N.eq_dec a 13) as [X|X]].
      * exists (([], false) :: l), last. split; [unfold content in *; cbn [map List.concat line_of fst snd app]; now rewrite <- D|]. split; [|exact L].
        constructor; [|exact F]. split; [easy|]. cbn [fst]. intros _ t T. destruct t; discriminate T.
      * subst a. exists ((rev acc, true) :: l), last. split; [|split; [|exact L]].
        -- unfold content in *. cbn [map List.concat rev]. unfold line_of at 1. cbn [fst snd]. rewrite <- !app_assoc. now rewrite <- D.
        -- constructor; [|exact F]. split; [cbn [fst]; rewrite <- in_rev; intros Y; apply A; now right|discriminate].
      * exists ((rev (a :: acc), false) :: l), last. split; [|split; [|exact L]].
        -- unfold content in *. cbn [map List.concat]. unfold line_of at 1. cbn [fst snd]. rewrite <- !app_assoc. now rewrite <- D.
        -- constructor; [|exact F]. split; [cbn [fst]; rewrite <- in_rev; exact A|]. cbn [fst]. intros _ t T. apply (f_equal (@rev N)) in T. rewrite rev_involutive, rev_app_distr in T. injection T as T _. congruence.
    + destruct (IH (c :: acc)) as [l [last [D R]]]; [intros [X|X]; [congruence|contradiction]|]. exists l, last. split; [|exact R]. rewrite <- D. cbn [rev]. now rewrite <- app_assoc.
Qed.

(** ** Connection state *)
Lemma cstate_eqb_spec : forall a b, cstate_eqb a b = true <-> a = b.
Proof. intros [] []; cbn; split; congruence. Qed.
Lemma line_text : forall s, state_text s ++ [10] = state_line s.
Proof. now intros []. Qed.
Lemma report_whole : forall x c, whole x -> report_state (fst x) (snd x) c = c \/
  report_state (fst x) (snd x) c = {| sc_state := snd x; sc_file := Some (state_line (snd x)) |}.
Proof.
  intros [io s] c W. unfold report_state, whole in *. cbn [fst snd] in *. destruct (cstate_eqb s (sc_state c)); [now left|]. right. destruct io as [|n]; [contradiction|].
  cbn [save_state]. rewrite line_text. now rewrite firstn_all2.
Qed.
Lemma state_saved : forall l c, Forall whole l -> reports l c = c \/ sc_file (reports l c) = Some (state_line (sc_state (reports l c))).
Proof.
  intros l. induction l as [|x l IH] using rev_ind; intros c F; [now left|]. unfold reports. rewrite fold_left_app. cbn [fold_left]. fold (reports l c).
  apply Forall_app in F. destruct F as [F X]. apply Forall_inv in X. destruct (report_whole x (reports l c) X) as [E|E]; rewrite E; [now apply IH|]. now right.
Qed.
Lemma state_prefix : forall l c, sc_file (reports l c) = sc_file c \/
  exists x n, In x l /\ sc_file (reports l c) = Some (firstn n (state_line (snd x))).
Proof.
  intros l. induction l as [|x l IH] using rev_ind; intros c; [now left|]. unfold reports. rewrite fold_left_app. cbn [fold_left]. fold (reports l c).
  assert (K : sc_file (report_state (fst x) (snd x) (reports l c)) = sc_file (reports l c) \/ exists n, sc_file (report_state (fst x) (snd x) (reports l c)) = Some (firstn n (state_line (snd x)))).
  { unfold report_state. destruct (cstate_eqb (snd x) (sc_state (reports l c))); [now left|]. cbn [sc_file]. destruct (fst x) as [|n]; [now left|]. right. exists n. cbn [save_state]. now rewrite line_text. }
  destruct K as [K|[n K]].
  - rewrite K. destruct (IH c) as [H|[y [n [I H]]]]; [now left|]. right. exists y, n. split; [apply in_or_app; now left|exact H].
  - right. exists x, n. split; [apply in_or_app; right; now left|exact K].
Qed.
Lemma line_prefix : forall s s' n, firstn n (state_line s) = state_line s' -> s = s'.
Proof.
  intros s s' n H. assert (L : In 10 (firstn n (state_line s))) by (rewrite H, <- line_text; apply in_or_app; right; now left).
  destruct s, s'; try reflexivity; exfalso; revert H; do 14 (destruct n as [|n]; [discriminate|]); discriminate.
Qed.
Lemma state_stale : forall l f, (forall x, In x l -> snd x = Disconnected) ->
  reports l {| sc_state := Disconnected; sc_file := f |} = {| sc_state := Disconnected; sc_file := f |}.
Proof.
  induction l as [|[io s] l IH]; intros f H; [reflexivity|]. unfold reports. cbn [fold_left fst snd]. pose proof (H _ (or_introl eq_refl)) as E. cbn [snd] in E. subst s.
  unfold report_state at 2. cbn [sc_state cstate_eqb]. apply IH. intros x X. apply H. now right.
Qed.

(** ** CA certificates *)
Lemma lower_in : forall e l, existsb (fun x => eq_ignore_case e x) l = true <-> In (map lower e) (map (map lower) l).
Proof.
  intros e l. rewrite existsb_exists, in_map_iff. unfold eq_ignore_case. split; intros [x [A B]]; exists x.
  - apply beq_spec in B. now split.
  - split; [exact B|]. apply beq_spec. now symmetry.
Qed.
Lemma named_spec : forall name, is_cert_file name = true <-> named name.
Proof.
  intros name. unfold is_cert_file, extension, named.
  assert (Q : forall e, eq_ignore_case e (lit "der") || eq_ignore_case e (lit "cer") || eq_ignore_case e (lit "crt") || eq_ignore_case e (lit "pem") = true <->
                        In (map lower e) [lit "der"; lit "cer"; lit "crt"; lit "pem"]).
  { intros e. rewrite <- (lower_in e [lit "der"; lit "cer"; lit "crt"; lit "pem"]%string). cbn [existsb]. rewrite orb_false_r, !orb_assoc. reflexivity. }
  split.
  - destruct (rfind_char 46 name) as [[|i]|] eqn:E; try discriminate. intros H. apply Q in H. apply rfind_char_some in E. destruct E as [a [b [E1 [E2 E3]]]].
    exists a, b. split; [exact E1|]. split; [intros X; subst a; discriminate E3|]. split; [exact E2|]. subst name. rewrite E3 in H.
    replace (S (length a)) with (length a + 1)%nat in H by lia. rewrite skipn_app in H. rewrite skipn_all2 in H by lia. replace (length a + 1 - length a)%nat with 1%nat in H by lia. exact H.
  - intros [stem [ext [E [S [D I]]]]]. subst name. change ([46] ++ ext) with (46 :: ext). rewrite rfind_char_app by exact D. destruct stem as [|c stem]; [contradiction|]. cbn [length].
    apply Q. change (skipn (Datatypes.S (Datatypes.S (length stem))) ((c :: stem) ++ 46 :: ext)) with (skipn (Datatypes.S (length stem)) (stem ++ 46 :: ext)).
    replace (Datatypes.S (length stem)) with (length stem + 1)%nat by lia. rewrite skipn_app. rewrite skipn_all2 by lia. replace (length stem + 1 - length stem)%nat with 1%nat by lia. exact I.
Qed.

Section Nodes.
  Context {file cert : Type}.
  Variable pem : file -> list cert * bool.
  Fixpoint node_ind2 (P : node file -> Prop) (HF : forall name f, P (NFile name f)) (HD : forall l, Forall P l -> P (NDir l)) (HB : P NBad) (n : node file) : P n :=
    match n with
    | NFile name f => HF name f
    | NDir l => HD l ((fix go (l : list (node file)) : Forall P l :=
                         match l with [] => Forall_nil P | x :: r => Forall_cons x (node_ind2 P HF HD HB x) (go r) end) l)
    | NBad => HB
    end.
  Lemma load_dir_cons : forall x r, load_ca pem (NDir (x :: r)) =
    let '(c, ok) := load_ca pem x in if ok then let '(c', ok') := load_ca pem (NDir r) in (c ++ c', ok') else (c, false).
  Proof. reflexivity. Qed.
  Lemma load_sound : forall n c, In c (fst (load_ca pem n)) -> exists name f, below n name f /\ named name /\ In c (fst (pem f)).
  Proof.
    induction n as [name f|l IH|] using node_ind2; intros c H.
    - cbn [load_ca] in H. destruct (is_cert_file name) eqn:E; [|contradiction]. exists name, f. split; [constructor|]. split; [now apply named_spec|exact H].
    - induction IH as [|x r X F IH]; [contradiction|]. rewrite load_dir_cons in H. destruct (load_ca pem x) as [cx ok].
      assert (K : In c cx -> exists name f, below (NDir (x :: r)) name f /\ named name /\ In c (fst (pem f))).
      { intros I. destruct (X c I) as [name [f [B R]]]. exists name, f. split; [|exact R]. eapply below_dir; [now left|exact B]. }
      destruct ok; [|exact (K H)]. destruct (load_ca pem (NDir r)) as [cr ok']. cbn [fst] in H. apply in_app_or in H. destruct H as [H|H]; [exact (K H)|].
      destruct (IH H) as [name [f [B R]]]. exists name, f. split; [|exact R]. inversion B as [|l' y n' f' I B']. subst. eapply below_dir; [right; exact I|exact B'].
    - contradiction.
  Qed.
  Lemma load_complete : forall n, fine pem n -> snd (load_ca pem n) = true /\
    forall name f c, below n name f -> named name -> In c (fst (pem f)) -> In c (fst (load_ca pem n)).
  Proof.
    induction n as [name f|l IH|] using node_ind2; intros [U G].
    - cbn [load_ca]. destruct (is_cert_file name) eqn:E.
      + split; [apply (G name f); [constructor|now apply named_spec]|]. intros name' f' c B N I. inversion B; subst. exact I.
      + split; [reflexivity|]. intros name' f' c B N I. inversion B; subst. apply named_spec in N. congruence.
    - induction IH as [|x r X F IH].
      + split; [reflexivity|]. intros name f c B. inversion B as [|l' y n' f' I B']. contradiction.
      + rewrite load_dir_cons.
        destruct X as [X1 X2].
        { split; [intros Y; apply U; eapply bad_below; [now left|exact Y]|]. intros name f B N. apply (G name f); [|exact N]. eapply below_dir; [now left|exact B]. }
        destruct IH as [R1 R2].
        { intros Y. apply U. inversion Y as [|l' y I Y']; subst. eapply bad_below; [right; exact I|exact Y']. }
        { intros name f B N. apply (G name f); [|exact N]. inversion B as [|l' y n' f' I B']; subst. eapply below_dir; [right; exact I|exact B']. }
        destruct (load_ca pem x) as [cx ok]. cbn [fst snd] in X1, X2. subst ok. destruct (load_ca pem (NDir r)) as [cr ok']. cbn [fst snd] in R1, R2. subst ok'.
        split; [reflexivity|]. cbn [fst]. intros name f c B N I. apply in_or_app. inversion B as [|l' y n' f' J B']; subst. destruct J as [J|J].
        * subst y. left. now apply (X2 name f).
        * right. apply (R2 name f); [|exact N|exact I]. eapply below_dir; [exact J|exact B'].
    - exfalso. apply U. constructor.
  Qed.
  Lemma loads_in : forall paths c, In c (load_cas pem paths) <-> exists p, In p paths /\ In c (fst (load_ca pem p)).
  Proof.
    intros paths c. unfold load_cas. rewrite in_concat. split.
    - intros [l [I C]]. apply in_map_iff in I. destruct I as [p [E I]]. subst l. now exists p.
    - intros [p [I C]]. exists (fst (load_ca pem p)). split; [|exact C]. now apply (in_map (fun p => fst (load_ca pem p))).
  Qed.
End Nodes.

(** ** TLS *)
Lemma tls_safe : forall cert (builder : option (tls_builder cert)) sc ciphers cas b, get_tls_connector builder sc ciphers cas = Some b ->
  tb_verify b = VPeer /\ tb_ciphers b = ciphers /\ (exists b0, builder = Some b0 /\ tb_trusted b = tb_trusted b0 ++ fst cas /\
    forall i, N.testbit (tb_options b0) i = true -> N.testbit (tb_options b) i = true) /\
  forall o i, In o [NO_COMPRESSION; NO_SSLV2; NO_SSLV3; NO_TLSV1; NO_TLSV1_1] -> N.testbit o i = true -> N.testbit (tb_options b) i = true.
Proof.
  intros cert builder sc ciphers cas b H. unfold get_tls_connector in H. destruct builder as [b0|]; [|discriminate]. destruct (sc ciphers); [|discriminate]. destruct (snd cas); [|discriminate].
  injection H as H. subst b. cbn [tb_verify tb_ciphers tb_trusted tb_options]. split; [reflexivity|]. split; [reflexivity|]. split.
  - exists b0. split; [reflexivity|]. split; [reflexivity|]. intros i I. rewrite !N.lor_spec, I. reflexivity.
  - intros o i I B. rewrite !N.lor_spec. cbn [In] in I. repeat (destruct I as [I|I]; [subst o; rewrite B, ?orb_true_r; reflexivity|]). contradiction.
Qed.

(** ** Lock file *)
Lemma set_inst_same : forall l i x, (i < length l)%nat -> nth_error (set_inst l i x) i = Some x.
Proof.
  intros l i x H. unfold set_inst. rewrite nth_error_app2 by (rewrite firstn_length; lia). rewrite firstn_length. replace (i - Nat.min i (length l))%nat with 0%nat by lia. reflexivity.
Qed.
Lemma set_inst_other : forall l i j x, (i < length l)%nat -> i <> j -> nth_error (set_inst l i x) j = nth_error l j.
Proof.
  induction l as [|y l IH]; intros i j x H D; [cbn [length] in H; lia|]. destruct i as [|i].
  - destruct j as [|j]; [contradiction|]. reflexivity.
  - destruct j as [|j]; [reflexivity|]. cbn [length] in H. cbn [nth_error]. rewrite <- (IH i j x) by lia. reflexivity.
Qed.
Definition lock_inv (k : lockfs) : Prop :=
  (forall i x, nth_error (k_inst k) i = Some x -> (k_holder k = Some i <-> has_lock x = true)) /\
  (forall i, k_holder k = Some i -> (i < length (k_inst k))%nat).
Lemma nth_lt : forall (l : list inst) i x, nth_error l i = Some x -> (i < length l)%nat.
Proof. intros l i x H. apply nth_error_Some. congruence. Qed.
Lemma set_inst_length : forall l i x, (i < length l)%nat -> length (set_inst l i x) = length l.
Proof. intros l i x H. unfold set_inst. rewrite app_length, firstn_length. cbn [length]. rewrite skipn_length. lia. Qed.
(** An instance that changes and does not change whether it has the lock *)
Lemma inv_keep : forall k i x y d, lock_inv k -> nth_error (k_inst k) i = Some x -> has_lock y = has_lock x ->
  lock_inv {| k_data := d; k_holder := k_holder k; k_inst := set_inst (k_inst k) i y |}.
Proof.
  intros k i x y d [V1 V2] I H. pose proof (nth_lt _ _ _ I) as L. split; cbn [k_holder k_inst].
  - intros j z J. destruct (Nat.eq_dec i j) as [E|E].
    + subst j. rewrite set_inst_same in J by exact L. injection J as J. subst z. rewrite H. now apply V1.
    + rewrite set_inst_other in J by assumption. now apply V1.
  - intros j J. rewrite set_inst_length by exact L. now apply V2.
Qed.
Lemma inv_done : forall k i x d, lock_inv k -> nth_error (k_inst k) i = Some x ->
  lock_inv {| k_data := d; k_holder := release i (k_holder k); k_inst := set_inst (k_inst k) i (with_phase x PDone 0) |}.
Proof.
  intros k i x d [V1 V2] I. pose proof (nth_lt _ _ _ I) as L.
  assert (R : forall j, release i (k_holder k) = Some j <-> k_holder k = Some j /\ i <> j).
  { intros j. unfold release. destruct (k_holder k) as [h|]; [|split; [discriminate|intros [X _]; discriminate X]]. destruct (Nat.eqb_spec i h) as [E|E].
    - subst h. split; [discriminate|]. intros [X Y]. injection X as X. contradiction.
    - split; [intros X; split; [exact X|]; injection X as X; now subst j|intros [X _]; exact X]. }
  split; cbn [k_holder k_inst].
  - intros j z J. rewrite R. destruct (Nat.eq_dec i j) as [E|E].
    + subst j. rewrite set_inst_same in J by exact L. injection J as J. subst z. split; [intros [_ X]; contradiction|discriminate].
    + rewrite set_inst_other in J by assumption. rewrite (V1 j z J). split; [intros [X _]; exact X|intros X; now split].
  - intros j J. rewrite set_inst_length by exact L. apply R in J. now apply V2.
Qed.
Lemma step_inv : forall e k, lock_inv k -> lock_inv (lock_step e k).
Proof.
  intros [i ok|i] k V; unfold lock_step; destruct (nth_error (k_inst k) i) as [x|] eqn:I; try exact V; [|now apply inv_done].
  destruct (in_phase x) eqn:P; try exact V.
  - destruct ok; [|now apply inv_done]. eapply inv_keep; [exact V|exact I|]. unfold has_lock, with_phase. cbn [in_phase]. now rewrite P.
  - destruct (k_holder k) as [h|] eqn:Hh; [rewrite <- Hh; now apply inv_done|]. destruct ok; [|rewrite <- Hh; now apply inv_done].
    destruct V as [V1 V2]. pose proof (nth_lt _ _ _ I) as L. split; cbn [k_holder k_inst].
    + intros j z J. destruct (Nat.eq_dec i j) as [E|E].
      * subst j. rewrite set_inst_same in J by exact L. injection J as J. subst z. split; reflexivity.
      * rewrite set_inst_other in J by assumption. pose proof (V1 j z J) as W. rewrite Hh in W. split; [intros X; injection X as X; contradiction|]. intros X. apply W in X. discriminate X.
    + intros j J. injection J as J. subst j. rewrite set_inst_length; exact L.
  - destruct ok; [|now apply inv_done]. eapply inv_keep; [exact V|exact I|]. unfold has_lock, with_phase. cbn [in_phase]. now rewrite P.
  - destruct ok; [|now apply inv_done]. eapply inv_keep; [exact V|exact I|]. unfold has_lock, with_phase. cbn [in_phase]. now rewrite P.
  - destruct ok; [|now apply inv_done]. eapply inv_keep; [exact V|exact I|]. unfold has_lock, with_phase. cbn [in_phase]. now rewrite P.
Qed.
Lemma run_inv : forall l k, lock_inv k -> lock_inv (lock_run l k).
Proof. induction l as [|e l IH]; intros k V; [exact V|]. unfold lock_run. cbn [fold_left]. apply IH. now apply step_inv. Qed.
Lemma new_inv : forall pids d, lock_inv (lock_new pids d).
Proof.
  intros pids d. split; [|discriminate]. intros i x H. cbn [lock_new k_inst k_holder] in *. apply nth_error_In in H. apply in_map_iff in H. destruct H as [p [E _]]. subst x. split; discriminate.
Qed.
Lemma lock_exclusive : forall pids d l i j x y, let k := lock_run l (lock_new pids d) in
  nth_error (k_inst k) i = Some x -> nth_error (k_inst k) j = Some y -> has_lock x = true -> has_lock y = true -> i = j.
Proof.
  intros pids d l i j x y k I J X Y. destruct (run_inv l _ (new_inv pids d)) as [V _]. fold k in V. apply (V i x I) in X. apply (V j y J) in Y. congruence.
Qed.
(** What an instance does when nothing goes wrong *)
Lemma next_step : forall k i x p off d h, nth_error (k_inst k) i = Some x ->
  nth_error (k_inst {| k_data := d; k_holder := h; k_inst := set_inst (k_inst k) i (with_phase x p off) |}) i = Some (with_phase x p off).
Proof. intros k i x p off d h I. cbn [k_inst]. apply set_inst_same. exact (nth_lt _ _ _ I). Qed.
Lemma overwrite_nil : forall d, overwrite 0 d [] = d.
Proof. intros d. unfold overwrite. cbn [firstn app]. rewrite skipn_nil. apply app_nil_r. Qed.
Lemma overwrite_end : forall d e, overwrite (length d) e d = d ++ e.
Proof. intros d e. unfold overwrite. rewrite firstn_app, firstn_all, Nat.sub_diag. cbn [firstn]. rewrite app_nil_r. rewrite skipn_all2 by lia. now rewrite app_nil_r. Qed.
Lemma lock_start : forall k i x, nth_error (k_inst k) i = Some x -> in_phase x = PStart -> k_holder k = None ->
  let k' := lock_run (repeat (EStep i true) 5) k in
  at_phase k' i PRunning /\ k_holder k' = Some i /\ k_data k' = print_dec (in_pid x) ++ [10].
Proof.
  intros k i x I P H. cbn [repeat]. unfold lock_run. cbn [fold_left].
  set (k1 := lock_step (EStep i true) k). assert (E1 : nth_error (k_inst k1) i = Some (with_phase x PCreated 0) /\ k_data k1 = [] /\ k_holder k1 = None).
  { unfold k1, lock_step. rewrite I, P. split; [apply (next_step k); exact I|]. split; [reflexivity|exact H]. }
  clearbody k1. destruct E1 as [I1 [D1 H1]].
  set (k2 := lock_step (EStep i true) k1). assert (E2 : nth_error (k_inst k2) i = Some (with_phase x PLocked 0) /\ k_data k2 = [] /\ k_holder k2 = Some i).
  { unfold k2, lock_step. rewrite I1. cbn [with_phase in_phase]. rewrite H1. split; [apply (next_step k1 i (with_phase x PCreated 0)); exact I1|]. split; [exact D1|reflexivity]. }
  clearbody k2. destruct E2 as [I2 [D2 H2]].
  set (k3 := lock_step (EStep i true) k2). assert (E3 : nth_error (k_inst k3) i = Some (with_phase x PNumber (length (print_dec (in_pid x)))) /\ k_data k3 = print_dec (in_pid x) /\ k_holder k3 = Some i).
  { unfold k3, lock_step. rewrite I2. cbn [with_phase in_phase in_pid]. split; [apply (next_step k2 i (with_phase x PLocked 0)); exact I2|]. cbn [k_data k_holder]. rewrite D2, overwrite_nil. split; [reflexivity|exact H2]. }
  clearbody k3. destruct E3 as [I3 [D3 H3]].
  set (k4 := lock_step (EStep i true) k3). assert (E4 : nth_error (k_inst k4) i = Some (with_phase x PLine (S (length (print_dec (in_pid x))))) /\ k_data k4 = print_dec (in_pid x) ++ [10] /\ k_holder k4 = Some i).
  { unfold k4, lock_step. rewrite I3. cbn [with_phase in_phase in_pid in_off]. split; [apply (next_step k3 i (with_phase x PNumber (length (print_dec (in_pid x))))); exact I3|]. cbn [k_data k_holder]. rewrite D3, overwrite_end. split; [reflexivity|exact H3]. }
  clearbody k4. destruct E4 as [I4 [D4 H4]].
  unfold lock_step. rewrite I4. cbn [with_phase in_phase in_pid in_off]. cbn [k_data k_holder]. split; [|split; [exact H4|exact D4]].
  eexists. split; [apply (next_step k4 i (with_phase x PLine (S (length (print_dec (in_pid x)))))); exact I4|reflexivity].
Qed.
Definition stays (i : nat) (d : bytes) (k0 k : lockfs) : Prop :=
  lock_inv k /\ k_holder k = Some i /\ at_phase k i PRunning /\ k_data k = d /\ (forall j, at_phase k j PStart -> at_phase k0 j PStart).
Lemma stay_done : forall i d k0 k j x, stays i d k0 k -> j <> i -> nth_error (k_inst k) j = Some x ->
  stays i d k0 {| k_data := k_data k; k_holder := release j (k_holder k); k_inst := set_inst (k_inst k) j (with_phase x PDone 0) |}.
Proof.
  intros i d k0 k j x [V [H [[y [Y1 Y2]] [D R]]]] N I. pose proof (nth_lt _ _ _ I) as L. split; [now apply inv_done|]. cbn [k_holder k_data k_inst]. rewrite H. cbn [release].
  destruct (Nat.eqb_spec j i) as [E|E]; [contradiction|]. split; [reflexivity|]. split.
  - exists y. split; [|exact Y2]. cbn [k_inst]. now rewrite set_inst_other.
  - split; [exact D|]. intros m [z [Z1 Z2]]. cbn [k_inst] in Z1. destruct (Nat.eq_dec j m) as [F|F].
    + subst m. rewrite set_inst_same in Z1 by exact L. injection Z1 as Z1. subst z. discriminate Z2.
    + rewrite set_inst_other in Z1 by assumption. apply R. now exists z.
Qed.
Lemma stay_step : forall i d k0 k e, stays i d k0 k -> quiet i k0 e -> stays i d k0 (lock_step e k).
Proof.
  intros i d k0 k e S Q. pose proof S as [V [H [[y [Y1 Y2]] [D R]]]]. destruct e as [j ok|j]; unfold lock_step; destruct (nth_error (k_inst k) j) as [x|] eqn:I; try exact S.
  - destruct (in_phase x) eqn:P; try exact S.
    + exfalso. apply Q. apply R. now exists x.
    + rewrite H. rewrite <- H at 1. apply stay_done; [exact S| |exact I]. intros X. subst j. rewrite Y1 in I. injection I as I. subst x. congruence.
    + exfalso. assert (X : has_lock x = true) by (unfold has_lock; now rewrite P). apply (proj1 V j x I) in X. rewrite H in X. injection X as X. subst j. rewrite Y1 in I. injection I as I. subst x. congruence.
    + exfalso. assert (X : has_lock x = true) by (unfold has_lock; now rewrite P). apply (proj1 V j x I) in X. rewrite H in X. injection X as X. subst j. rewrite Y1 in I. injection I as I. subst x. congruence.
    + exfalso. assert (X : has_lock x = true) by (unfold has_lock; now rewrite P). apply (proj1 V j x I) in X. rewrite H in X. injection X as X. subst j. rewrite Y1 in I. injection I as I. subst x. congruence.
  - apply stay_done; [exact S|exact Q|exact I].
Qed.
Lemma lock_stays : forall pids d l i k, k = lock_run l (lock_new pids d) -> at_phase k i PRunning -> forall es, Forall (quiet i k) es ->
  at_phase (lock_run es k) i PRunning /\ k_data (lock_run es k) = k_data k.
Proof.
  intros pids d l i k E A es F. assert (V : lock_inv k) by (subst k; apply run_inv, new_inv). clear E.
  assert (S : stays i (k_data k) k k).
  { split; [exact V|]. pose proof A as [x [X1 X2]]. split; [apply (proj1 V i x X1); unfold has_lock; now rewrite X2|]. split; [exact A|]. split; [reflexivity|auto]. }
  assert (G : forall k', stays i (k_data k) k k' -> stays i (k_data k) k (lock_run es k')).
  { clear S A V. induction F as [|e es Q F IH]; intros k' S; [exact S|]. unfold lock_run. cbn [fold_left]. apply IH. now apply stay_step. }
  specialize (G k S). destruct G as [_ [_ [G1 [G2 _]]]]. now split.
Qed.

(** ** All paths *)
Lemma cas_sound : forall file cert (pem : file -> list cert * bool) paths c, In c (load_cas pem paths) ->
  exists p name f, In p paths /\ below p name f /\ named name /\ In c (fst (pem f)).
Proof. intros file cert pem paths c H. apply loads_in in H. destruct H as [p [I C]]. destruct (load_sound pem p c C) as [name [f R]]. exists p, name, f. now split. Qed.
Lemma cas_complete : forall file cert (pem : file -> list cert * bool) paths p name f c,
  In p paths -> fine pem p -> below p name f -> named name -> In c (fst (pem f)) -> In c (load_cas pem paths).
Proof. intros file cert pem paths p name f c I F B N C. apply loads_in. exists p. split; [exact I|]. now apply (proj2 (load_complete pem p F) name f c). Qed.
Lemma state_parts : forall l c, sc_file (reports l c) = sc_file c \/
  exists x n, In x l /\ sc_file (reports l c) = Some (firstn n (state_line (snd x))) /\ forall s, firstn n (state_line (snd x)) = state_line s -> s = snd x.
Proof.
  intros l c. destruct (state_prefix l c) as [H|[x [n [I H]]]]; [now left|]. right. exists x, n. split; [exact I|]. split; [exact H|]. intros s E. symmetry. exact (line_prefix _ _ _ E).
Qed.
Lemma state_failed : forall l f, (forall x, In x l -> snd x = Connected) ->
  sc_file (reports ((CannotCreate, Connected) :: l) {| sc_state := Disconnected; sc_file := f |}) = f.
Proof.
  intros l f H. unfold reports. cbn [fold_left fst snd]. unfold report_state at 2. cbn [sc_state cstate_eqb save_state sc_file].
  assert (G : forall l c, sc_state c = Connected -> (forall x, In x l -> snd x = Connected) -> fold_left (fun c x => report_state (fst x) (snd x) c) l c = c).
  { clear. induction l as [|x l IH]; intros c C H; [reflexivity|]. cbn [fold_left]. assert (E : report_state (fst x) (snd x) c = c).
    { unfold report_state. rewrite (H x (or_introl eq_refl)), C. reflexivity. }
    rewrite E. apply IH; [exact C|]. intros y Y. apply H. now right. }
  rewrite G; [reflexivity|reflexivity|exact H].
Qed.
