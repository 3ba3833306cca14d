(** The polls of the TLS stream. *)
From Coq Require Import String NArith List Bool.
From Verif.Model Require Import Bytes Text Tls CmdLine.
From Verif.Spec Require Import TlsSpec CmdSpec.
From Verif.Proofs Require Import TextProofs CmdProofs.
Import ListNotations.
Local Open Scope N_scope.

Section Stream.
  Context {T E : Type}.
  Variable tr : transport T.
  Variable en : engine E.

  Definition ran {R} (k : waker) (c : call R) (w w' : world T) (r : R) : Prop :=
    exists l, w_polls w' = l ++ w_polls w /\ Forall (fun p => fst p = k) l /\
      forall blocks last, polite tr -> honest blocks last c -> blocks r = true ->
        match l with [] => last = true | e :: _ => snd e = true end.

  Lemma context_step A (op : T -> waker -> T * poll (io A)) k w : w_ctx w = Some k ->
    exists w' x b, with_context op w = (w', Some x) /\ w_ctx w' = Some k /\ w_polls w' = (k, b) :: w_polls w /\
      (snd (op (w_sock w) k) <> Ready (IoErr EWouldBlock) -> is_block x = true -> b = true).
  Proof.
    intros C. unfold with_context. rewrite C. destruct (op (w_sock w) k) as [s p] eqn:O. cbn [snd].
    eexists. eexists. eexists. split; [reflexivity|]. split; [exact C|]. split; [reflexivity|].
    intros P B. destruct p as [|a]; [reflexivity|]. destruct a as [x|e]; [discriminate|]. destruct e; [now elim P|discriminate].
  Qed.

  Lemma run_sound R (c : call R) : forall k w, w_ctx w = Some k ->
    exists w' r, run tr c w = (w', Some r) /\ w_ctx w' = Some k /\ ran k c w w' r.
  Proof.
    induction c as [r|n f IH|d f IH|f IH]; intros k w C; cbn [run].
    { exists w, r. split; [reflexivity|]. split; [exact C|]. exists []. split; [reflexivity|]. split; [constructor|].
      intros bl la _ H B. cbn in H. exact (H B). }
    all: match goal with |- context [with_context ?op ?v] => destruct (context_step _ op _ v ltac:(eassumption)) as [w1 [x [b [E1 [C1 [P1 B1]]]]]] end.
    all: rewrite E1; destruct (IH x k w1 C1) as [w2 [r [E2 [C2 [l [P2 [F2 H2]]]]]]].
    all: exists w2, r; split; [exact E2|]; split; [exact C2|]; exists (l ++ [(k, b)]).
    all: rewrite P2, P1, <- app_assoc; split; [reflexivity|]; split; [apply Forall_app; split; [exact F2|constructor; [reflexivity|constructor]]|].
    all: intros bl la P H B; cbn [honest] in H; specialize (H2 bl (is_block x) P (H x) B).
    all: destruct l as [|e l]; cbn [app]; [cbn [snd]; apply B1; [|exact H2]|exact H2].
    all: apply P.
  Qed.

  Lemma guarded_sound R (c : call R) k w :
    exists w' r, guarded tr k c w = (w', Some r) /\ w_ctx w' = None /\ ran k c w w' r.
  Proof.
    unfold guarded. destruct (run_sound R c k (set_ctx (Some k) w) eq_refl) as [w' [r [E1 [C1 [l [P1 H1]]]]]].
    rewrite E1. exists (set_ctx None w'), r. split; [reflexivity|]. split; [reflexivity|]. exists l. split; [exact P1|exact H1].
  Qed.

  Lemma ran_sleeps R (c : call R) k w w' r blocks : ran k c w w' r -> polite tr -> honest blocks false c -> blocks r = true -> sleeps k w w'.
  Proof.
    intros [l [P1 [F1 H1]]] P H B. specialize (H1 blocks false P H B). destruct l as [|[k' b] l]; [discriminate|].
    cbn [snd] in H1. subst b. pose proof (Forall_inv F1) as F2. pose proof (Forall_inv_tail F1) as F3. cbn [fst] in F2. subst k'. exists l. split; [exact P1|exact F3].
  Qed.

  Lemma fits_run (c : call (E * io bytes)) room : forall w w' e d, fits room c -> run tr c w = (w', Some (e, IoOk d)) -> nlen d <= room.
  Proof.
    induction c as [[e0 r0]|n f IH|b f IH|f IH]; intros w w' e d F R; cbn [run] in R.
    { injection R as _ _ R. subst r0. exact F. }
    all: match type of R with context [with_context ?op ?v] => destruct (with_context op v) as [w1 [x|]]; [|discriminate] end.
    all: exact (IH x w1 w' e d (F x) R).
  Qed.

  Section Sound.
    Hypothesis P : polite tr.
    Hypothesis H : honest_engine en.

    Lemma io_poll_pending A (r : io A) : io_poll r = Pending -> is_block r = true.
    Proof. destruct r as [a|[|c]]; cbn; congruence. Qed.

    Lemma read_sound k room e w : fits room (en_read en e room) -> sound_poll k w (poll_read tr en k room e w).
    Proof.
      intros F. unfold poll_read. destruct (guarded_sound _ (en_read en e room) k w) as [w' [[e' r] [E1 [C1 R1]]]]. rewrite E1.
      assert (B : is_block r = true -> sleeps k w w') by (intros B; apply (ran_sleeps _ _ _ _ _ _ _ R1 P (ho_read en H e room)); exact B).
      destruct r as [d|x].
      - assert (L : nlen d <= room).
        { unfold guarded in E1. destruct (run tr (en_read en e room) (set_ctx (Some k) w)) as [w1 r1] eqn:X. injection E1 as _ E1. subst r1.
          exact (fits_run _ _ _ _ _ _ F X). }
        apply N.leb_le in L. rewrite L. exists w', e'. eexists. split; [reflexivity|]. split; [exact C1|]. discriminate.
      - exists w', e'. eexists. split; [reflexivity|]. split; [exact C1|]. intros Q. apply B. exact (io_poll_pending _ _ Q).
    Qed.
    Lemma write_sound k d e w : sound_poll k w (poll_write tr en k d e w).
    Proof.
      unfold poll_write. destruct (guarded_sound _ (en_write en e d) k w) as [w' [[e' r] [E1 [C1 R1]]]]. rewrite E1.
      exists w', e'. eexists. split; [reflexivity|]. split; [exact C1|]. intros Q.
      apply (ran_sleeps _ _ _ _ _ _ _ R1 P (ho_write en H e d)). exact (io_poll_pending _ _ Q).
    Qed.
    Lemma flush_sound k e w : sound_poll k w (poll_flush tr en k e w).
    Proof.
      unfold poll_flush. destruct (guarded_sound _ (en_flush en e) k w) as [w' [[e' r] [E1 [C1 R1]]]]. rewrite E1.
      exists w', e'. eexists. split; [reflexivity|]. split; [exact C1|]. intros Q.
      apply (ran_sleeps _ _ _ _ _ _ _ R1 P (ho_flush en H e)). exact (io_poll_pending _ _ Q).
    Qed.
    Lemma shutdown_sound k e w : sound_poll k w (poll_shutdown tr en k e w).
    Proof.
      unfold poll_shutdown. destruct (guarded_sound _ (en_shutdown en e) k w) as [w' [[e' r] [E1 [C1 R1]]]]. rewrite E1.
      destruct r as [|x|c].
      - destruct (tr_shutdown tr (w_sock w') k) as [s p]. exists (polled k s p w'), e', p. split; [reflexivity|]. split; [exact C1|].
        intros Q. subst p. destruct R1 as [l [P1 [F1 _]]]. exists l. cbn [polled w_polls]. rewrite P1. split; [reflexivity|exact F1].
      - exists w', e'. eexists. split; [reflexivity|]. split; [exact C1|]. intros Q.
        apply (ran_sleeps _ _ _ _ _ _ _ R1 P (ho_shutdown en H e)). cbn. destruct x; [reflexivity|discriminate].
      - exists w', e'. eexists. split; [reflexivity|]. split; [exact C1|]. discriminate.
    Qed.

    Lemma sleeps_trans k (w w1 w2 : world T) l : w_polls w1 = l ++ w_polls w -> Forall (fun p => fst p = k) l -> sleeps k w1 w2 -> sleeps k w w2.
    Proof.
      intros E1 F [l2 [E2 F2]]. exists (l2 ++ l). split; [rewrite E2, E1, app_assoc; reflexivity|apply Forall_app; now split].
    Qed.

    Lemma handshake_sound k h w : sound_poll k w (poll_handshake tr en k (Some h) w) /\
      (forall w' h' p, poll_handshake tr en k (Some h) w = (w', Some (h', p)) -> (p = Pending <-> h' <> None)).
    Proof.
      unfold poll_handshake. destruct h as [e|c|c|e]; cbn [finished].
      1-3: split; [eexists; eexists; eexists; split; [reflexivity|]; split; [reflexivity|discriminate]|].
      1-3: intros w' h' p Q; injection Q as _ Q1 Q2; subst; split; [discriminate|intros X; now elim X].
      destruct (guarded_sound _ (en_handshake en e) k w) as [w' [h' [E1 [C1 R1]]]]. rewrite E1. destruct h' as [e'|c|c|e']; cbn [finished].
      1-3: split; [eexists; eexists; eexists; split; [reflexivity|]; split; [exact C1|discriminate]|].
      1-3: intros w2 h2 p Q; injection Q as _ Q1 Q2; subst; split; [discriminate|intros X; now elim X].
      split.
      - eexists. eexists. eexists. split; [reflexivity|]. split; [exact C1|]. intros _. apply (ran_sleeps _ _ _ _ _ _ _ R1 P (ho_handshake en H e)). reflexivity.
      - intros w2 h2 p Q. injection Q as _ Q1 Q2. subst. split; [discriminate|reflexivity].
    Qed.
    Lemma shake_sound k h w : sound_poll k w (poll_shake tr en k h w) /\
      (forall w' c p, poll_shake tr en k h w = (w', Some (c, p)) -> (p = Pending <-> c <> CEnd)).
    Proof.
      unfold poll_shake. destruct (handshake_sound k h w) as [[w' [h' [p [E1 [C1 S1]]]]] X]. rewrite E1.
      specialize (X w' h' p E1). destruct h' as [h'|].
      - split.
        + exists w'. eexists. exists p. split; [reflexivity|]. split; [exact C1|exact S1].
        + intros w2 c q Q. injection Q as _ Q1 Q2. subst c q. split; [discriminate|]. intros _. apply X. discriminate.
      - split.
        + exists w'. eexists. exists p. split; [reflexivity|]. split; [exact C1|exact S1].
        + intros w2 c q Q. injection Q as _ Q1 Q2. subst c q. split; [|intros Y; now elim Y]. intros Y. apply X in Y. now elim Y.
    Qed.
    Lemma connect_sound k c w : c <> CEnd -> sound_poll k w (poll_connect tr en k c w) /\
      (forall w' c' p, poll_connect tr en k c w = (w', Some (c', p)) -> (p = Pending <-> c' <> CEnd)).
    Proof.
      intros N. unfold poll_connect. destruct c as [h|h|]; [|apply shake_sound|now elim N].
      destruct (guarded_sound _ (en_connect en h) k w) as [w1 [h1 [E1 [C1 [l [P1 [F1 _]]]]]]]. rewrite E1.
      destruct (shake_sound k h1 w1) as [[w2 [c2 [p [E2 [C2 S2]]]]] X]. split; [|exact X].
      exists w2, c2, p. split; [exact E2|]. split; [exact C2|]. intros Q. apply (sleeps_trans k w w1 w2 l P1 F1). exact (S2 Q).
    Qed.
  End Sound.

  Section Slow.
    Hypothesis W : working tr.
    Hypothesis I : innocent_engine en.

    Lemma slow_step A (op : T -> waker -> T * poll (io A)) w w' x :
      (forall s k y, snd (op s k) <> Ready (IoErr y)) -> with_context op w = (w', Some x) -> is_error x = false.
    Proof.
      intros P. unfold with_context. destruct (w_ctx w) as [k|]; [|discriminate]. destruct (op (w_sock w) k) as [s p] eqn:O.
      intros Q. injection Q as _ Q. subst x. destruct p as [|[a|y]]; [reflexivity|reflexivity|].
      exfalso. apply (P (w_sock w) k y). rewrite O. reflexivity.
    Qed.
    Lemma slow_run R (fails : R -> bool) (c : call R) : forall w w' r, innocent fails false c -> run tr c w = (w', Some r) -> fails r = false.
    Proof.
      induction c as [r0|n f IH|d f IH|f IH]; intros w w' r F Q; cbn [run] in Q.
      { injection Q as _ Q. subst r0. cbn in F. destruct (fails r); [now specialize (F eq_refl)|reflexivity]. }
      all: match type of Q with context [with_context ?op ?v] => destruct (with_context op v) as [w1 [x|]] eqn:X; [|discriminate] end.
      all: apply slow_step in X; [|intros; apply W]; specialize (F x); cbn in F; rewrite X in F; exact (IH x w1 w' r F Q).
    Qed.
    Lemma slow_guarded R (fails : R -> bool) k (c : call R) w w' r :
      innocent fails false c -> guarded tr k c w = (w', Some r) -> fails r = false.
    Proof.
      intros F. unfold guarded. destruct (run tr c (set_ctx (Some k) w)) as [w1 r1] eqn:X. intros Q. injection Q as _ Q. subst r1. eapply slow_run; eauto.
    Qed.
    Lemma io_poll_error A (r : io A) x : io_poll r = Ready (IoErr x) -> is_error r = true.
    Proof. destruct r as [a|[|c]]; cbn; congruence. Qed.
    Lemma read_no_error k room e w : no_error (poll_read tr en k room e w).
    Proof.
      intros w1 s x. unfold poll_read. destruct (guarded tr k (en_read en e room) w) as [w' [[e' r]|]] eqn:E1; [|discriminate].
      apply (slow_guarded _ (fun x => is_error (snd x))) in E1; [|apply I]. cbn [snd] in E1.
      destruct r as [d|y]; [destruct (nlen d <=? room); discriminate|]. intros Q. injection Q as _ _ Q. change (io_poll (IoErr y : io bytes) = Ready (IoErr x)) in Q. apply io_poll_error in Q. congruence.
    Qed.
    Lemma write_no_error k d e w : no_error (poll_write tr en k d e w).
    Proof.
      intros w1 s x. unfold poll_write. destruct (guarded tr k (en_write en e d) w) as [w' [[e' r]|]] eqn:E1; [|discriminate].
      apply (slow_guarded _ (fun x => is_error (snd x))) in E1; [|apply I]. cbn [snd] in E1. intros Q. apply (f_equal snd) in Q. cbn [snd] in Q.
      assert (Q' : io_poll r = Ready (IoErr x)) by congruence. apply io_poll_error in Q'. congruence.
    Qed.
    Lemma flush_no_error k e w : no_error (poll_flush tr en k e w).
    Proof.
      intros w1 s x. unfold poll_flush. destruct (guarded tr k (en_flush en e) w) as [w' [[e' r]|]] eqn:E1; [|discriminate].
      apply (slow_guarded _ (fun x => is_error (snd x))) in E1; [|apply I]. cbn [snd] in E1. intros Q. apply (f_equal snd) in Q. cbn [snd] in Q.
      assert (Q' : io_poll r = Ready (IoErr x)) by congruence. apply io_poll_error in Q'. congruence.
    Qed.
    Lemma shutdown_no_error k e w : no_error (poll_shutdown tr en k e w).
    Proof.
      intros w1 s x. unfold poll_shutdown. destruct (guarded tr k (en_shutdown en e) w) as [w' [[e' r]|]] eqn:E1; [|discriminate].
      apply (slow_guarded _ (fun x => shut_fails (snd x))) in E1; [|apply I]. cbn [snd] in E1. destruct r as [|y|c].
      - destruct (tr_shutdown tr (w_sock w') k) as [s1 p] eqn:S. intros Q. assert (Q' : p = Ready (IoErr x)) by congruence.
        apply (wo_shutdown tr W (w_sock w') k x). rewrite S. exact Q'.
      - intros Q. apply (f_equal snd) in Q. cbn [snd] in Q. assert (Q' : io_poll (IoErr y : io unit) = Ready (IoErr x)) by congruence.
        apply io_poll_error in Q'. destruct y; cbn in *; congruence.
      - discriminate E1.
    Qed.
    Lemma shake_unfailed k h w : hs_fails h = false -> not_failed (poll_shake tr en k h w) /\
      forall w' c p, poll_shake tr en k h w = (w', Some (c, p)) -> unfailed c.
    Proof.
      intros Hh. unfold poll_shake, poll_handshake. destruct h as [e|c|c|e]; try discriminate Hh; cbn [finished].
      - split; [intros w1 c x Q; discriminate|]. intros w' c p Q. injection Q as _ <- _. exact Logic.I.
      - destruct (guarded tr k (en_handshake en e) w) as [w' [h'|]] eqn:E1; [|split; [intros w1 c x; discriminate|intros w1 c p; discriminate]].
        apply (slow_guarded _ hs_fails) in E1; [|apply I]. destruct h' as [e'|c|c|e']; try discriminate E1; cbn [finished].
        + split; [intros w1 c x Q; discriminate|]. intros w1 c p Q. injection Q as _ <- _. exact Logic.I.
        + split; [intros w1 c x Q; discriminate|]. intros w1 c p Q. injection Q as _ <- _. reflexivity.
    Qed.
    Lemma connect_unfailed k c w : unfailed c -> not_failed (poll_connect tr en k c w) /\
      forall w' c' p, poll_connect tr en k c w = (w', Some (c', p)) -> unfailed c'.
    Proof.
      intros U. unfold poll_connect. destruct c as [h|h|]; [|now apply shake_unfailed|split; [intros w1 c x; discriminate|intros w1 c p; discriminate]].
      destruct (guarded tr k (en_connect en h) w) as [w1 [h1|]] eqn:E1; [|split; [intros w2 c x; discriminate|intros w2 c p; discriminate]].
      apply (slow_guarded _ hs_fails) in E1; [|apply I]. now apply shake_unfailed.
    Qed.
  End Slow.
End Stream.

(** ** Names *)
Lemma hostname_port h p : ~ In 58 p -> hostname (h ++ 58 :: p) = h.
Proof. intros H. unfold hostname. rewrite rfind_char_app by exact H. rewrite firstn_app, PeanoNat.Nat.sub_diag, firstn_all. cbn. apply app_nil_r. Qed.
Lemma digits_no_colon p : digits p -> ~ In 58 p.
Proof. intros [_ F] I. rewrite Forall_forall in F. destruct (F 58 I) as [_ X]. now elim X. Qed.
Lemma hostname_given given :
  (host_form given -> hostname (service_address given) = given) /\
  (forall h p, host_form h -> digits p -> given = h ++ 58 :: p -> hostname (service_address given) = h).
Proof.
  destruct (service_address_expected given) as [A B]. split.
  - intros F. rewrite (A F). change (lit ":8900"%string) with (58 :: [56; 57; 48; 48]). apply hostname_port.
    intros [X|[X|[X|[X|X]]]]; try discriminate; contradiction.
  - intros h p F D E. rewrite (B h p F D E), E. apply hostname_port. now apply digits_no_colon.
Qed.
