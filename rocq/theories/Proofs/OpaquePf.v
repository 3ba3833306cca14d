(** The data of the sessions are carried without being looked at. *)
From Coq Require Import NArith ZArith List Bool Lia.
From Verif.Model Require Import Bytes Frame Service Control Alist Session Manager Client.
From Verif.Spec Require Import OpaqueSpec.
Import ListNotations.
Local Open Scope N_scope.

Section Renaming.
  Variable f : N -> N -> N.
  Notation own := (own f). Notation ren_msg := (ren_msg f). Notation ren_rd := (ren_rd f). Notation ren_sobs := (ren_sobs f).
  Notation ren_sev := (ren_sev f). Notation ren_mobs := (ren_mobs f). Notation ren_cobs := (ren_cobs f). Notation ren_tev := (ren_tev f).
  Notation ren_item := (ren_item f). Notation ren_kev := (ren_kev f).

  Lemma own_len sid b : nlen (own sid b) = nlen b.
  Proof. unfold nlen, OpaqueSpec.own. now rewrite map_length. Qed.
  Lemma own_app sid a b : own sid (a ++ b) = own sid a ++ own sid b.
  Proof. apply map_app. Qed.
  Lemma own_firstn sid n b : own sid (firstn n b) = firstn n (own sid b).
  Proof. symmetry. apply firstn_map. Qed.
  Lemma own_skipn sid n b : own sid (skipn n b) = skipn n (own sid b).
  Proof. symmetry. apply skipn_map. Qed.
  Lemma own_land sid b : own (N.land sid 16777215) b = own sid b.
  Proof. unfold OpaqueSpec.own. change 16777215 with (N.ones 24). rewrite N.land_ones, N.mod_mod by (compute; discriminate). reflexivity. Qed.
  Lemma ctl_msg m : ren_msg (amsg_of_cmsg m) = amsg_of_cmsg m.
  Proof. reflexivity. Qed.
  Lemma data_msg svc sid b : svc <> 0 -> ren_msg (amsg_new svc sid b) = amsg_new svc sid (own sid b).
  Proof. intros H. unfold OpaqueSpec.ren_msg, amsg_new. cbn [m_service m_session m_payload]. destruct (N.eqb_spec svc 0); [contradiction|]. now rewrite own_land. Qed.

  (** Sessions *)
  Definition ren_sess (s : sess) : sess :=
    {| s_service := s_service s; s_session := s_session s; s_input := own (s_session s) (s_input s); s_output := own (s_session s) (s_output s);
       s_incap := s_incap s; s_outcap := s_outcap s; s_written := s_written s; s_mgr_waker := s_mgr_waker s;
       s_tr_waker := s_tr_waker s; s_closed := s_closed s; s_error := s_error s; s_phase := s_phase s;
       s_mgr_run := s_mgr_run s; s_tr_run := s_tr_run s; s_wait_rd := s_wait_rd s; s_wait_wr := s_wait_wr s |}.
  Definition ren_taken (t : taken) : taken := match t with TkMsg m => TkMsg (ren_msg m) | _ => t end.

  Lemma ren_wake_mgr s : wake_mgr (ren_sess s) = ren_sess (wake_mgr s).
  Proof. unfold wake_mgr. destruct s; cbn. now destruct s_mgr_waker. Qed.
  Lemma ren_wake_tr s : wake_tr (ren_sess s) = ren_sess (wake_tr s).
  Proof. unfold wake_tr. destruct s; cbn. now destruct s_tr_waker. Qed.
  Lemma ren_close s : sess_close (ren_sess s) = ren_sess (sess_close s).
  Proof. unfold sess_close. rewrite <- ren_wake_mgr, <- ren_wake_tr. now destruct s. Qed.
  Lemma ren_error s : sess_set_error (ren_sess s) = ren_sess (sess_set_error s).
  Proof. unfold sess_set_error. cbn [ren_sess s_closed]. destruct (s_closed s); [reflexivity|]. rewrite <- ren_close. now destruct s. Qed.

  Lemma own_nil {A} sid b (x y : A) : match own sid b with [] => x | _ => y end = match b with [] => x | _ => y end.
  Proof. now destruct b. Qed.

  Lemma keep_wake_mgr s : s_session (wake_mgr s) = s_session s /\ s_service (wake_mgr s) = s_service s.
  Proof. unfold wake_mgr. now destruct (s_mgr_waker s). Qed.
  Lemma keep_wake_tr s : s_session (wake_tr s) = s_session s /\ s_service (wake_tr s) = s_service s.
  Proof. unfold wake_tr. now destruct (s_tr_waker s). Qed.

  Lemma ren_push s p : sess_push (ren_sess s) (own (s_session s) p) = (ren_sess (fst (sess_push s p)), map (ren_sobs (s_session s)) (snd (sess_push s p))).
  Proof.
    unfold sess_push. cbn [ren_sess s_closed s_outcap]. rewrite own_len. destruct (s_closed s) eqn:C; [reflexivity|].
    destruct (_ <? _); [rewrite ren_error; reflexivity|]. cbn [fst snd map OpaqueSpec.ren_sobs]. f_equal.
    cbn [with_output with_caps s_output ren_sess]. rewrite <- own_app, own_nil. destruct (s_output s ++ p) eqn:E.
    - unfold ren_sess, with_output, with_caps. cbn. reflexivity.
    - rewrite <- ren_wake_tr. unfold ren_sess, with_output, with_caps. cbn. reflexivity.
  Qed.

  Lemma ren_take fa s : s_service s <> 0 -> forall t s' f' o, sess_take fa s = (t, s', f', o) ->
    sess_take fa (ren_sess s) = (ren_taken t, ren_sess s', f', map (ren_sobs (s_session s)) o).
  Proof.
    intros V t s' f' o. unfold sess_take. cbn [ren_sess s_written s_incap s_outcap s_session s_input]. rewrite own_len.
    destruct (0 <? s_written s).
    { destruct (next_id fa). intros [= <- <- <- <-]. reflexivity. }
    cbv zeta. rewrite <- own_firstn.
    set (k := N.min (s_incap s) (nlen (s_input s))).
    set (s2 := with_input (with_caps s (s_incap s - k) (s_outcap s) (s_written s)) (skipn (N.to_nat k) (s_input (with_caps s (s_incap s - k) (s_outcap s) (s_written s))))).
    assert (E2 : with_input (with_caps (ren_sess s) (s_incap s - k) (s_outcap s) (s_written s))
                   (skipn (N.to_nat k) (s_input (with_caps (ren_sess s) (s_incap s - k) (s_outcap s) (s_written s)))) = ren_sess s2).
    { unfold s2, ren_sess, with_input, with_caps. cbn -[OpaqueSpec.own]. now rewrite own_skipn. }
    cbn [with_caps s_input ren_sess] in E2 |- *. cbn [with_caps s_input] in s2. fold s2.
    rewrite E2.
    set (s3 := if nlen (s_input s2) <? BUFFER_CAPACITY then wake_tr s2 else s2).
    assert (E3 : (if nlen (s_input (ren_sess s2)) <? BUFFER_CAPACITY then wake_tr (ren_sess s2) else ren_sess s2) = ren_sess s3).
    { unfold s3. cbn [ren_sess s_input]. rewrite own_len. destruct (_ <? _); [apply ren_wake_tr|reflexivity]. }
    rewrite E3.
    assert (K : s_session s3 = s_session s /\ s_service s3 = s_service s).
    { unfold s3. destruct (_ <? _); [destruct (keep_wake_tr s2) as [-> ->]|]; split; reflexivity. }
    destruct K as [K1 K2]. destruct (firstn (N.to_nat k) (s_input s)) as [|x data] eqn:ED.
    - cbn [OpaqueSpec.own map]. cbn [ren_sess s_closed s_error]. destruct (s_closed s3); [destruct (s_error s3)|]; intros [= <- <- <- <-]; reflexivity.
    - intros [= <- <- <- <-]. rewrite K1, K2. cbn [ren_sess s_service s_session]. rewrite K1, K2. cbn [ren_taken map OpaqueSpec.ren_sobs].
      rewrite (data_msg _ _ _ V). reflexivity.
  Qed.

  Lemma ren_read s r : poll_read_input (ren_sess s) (ren_rd (s_session s) r) =
    (let '(b, s', o) := poll_read_input s r in (b, ren_sess s', map (ren_sobs (s_session s)) o)).
  Proof.
    unfold poll_read_input. cbn [ren_sess s_closed s_input]. rewrite own_len. destruct (s_closed s); [reflexivity|].
    destruct (_ <=? _); [reflexivity|]. destruct r as [|b|]; cbn [OpaqueSpec.ren_rd].
    - reflexivity.
    - destruct b as [|x b]; cbn [OpaqueSpec.own map].
      + f_equal; f_equal. change (with_wait (ren_sess s) false (s_wait_wr (ren_sess s))) with (ren_sess (with_wait s false (s_wait_wr s))).
        rewrite ren_close. cbn [ren_sess s_input]. rewrite own_nil. destruct (s_input (sess_close _)); [reflexivity|apply ren_wake_mgr].
      + f_equal. f_equal.
        change (with_input (with_wait (ren_sess s) false (s_wait_wr (ren_sess s))) (s_input (with_wait (ren_sess s) false (s_wait_wr (ren_sess s))) ++ f (s_session s mod 2 ^ 24) x :: map (f (s_session s mod 2 ^ 24)) b))
          with (with_input (with_wait (ren_sess s) false (s_wait_wr s)) (own (s_session s) (s_input s) ++ own (s_session s) (x :: b))).
        rewrite <- own_app.
        change (with_input (with_wait (ren_sess s) false (s_wait_wr s)) (own (s_session s) (s_input s ++ x :: b)))
          with (ren_sess (with_input (with_wait s false (s_wait_wr s)) (s_input s ++ x :: b))).
        cbn [ren_sess s_input with_input with_wait]. rewrite own_nil. destruct (s_input s ++ x :: b) eqn:E; [now destruct (s_input s)|].
        rewrite <- E. apply ren_wake_mgr.
    - f_equal; f_equal. change (with_wait (ren_sess s) false (s_wait_wr (ren_sess s))) with (ren_sess (with_wait s false (s_wait_wr s))).
      rewrite ren_error. cbn [ren_sess s_input]. rewrite own_nil. destruct (s_input (sess_set_error _)); [reflexivity|apply ren_wake_mgr].
  Qed.

  Lemma ren_write s w : poll_write_output (ren_sess s) w =
    (let '(b, s', o) := poll_write_output s w in (b, ren_sess s', map (ren_sobs (s_session s)) o)).
  Proof.
    unfold poll_write_output. cbn [ren_sess s_output]. destruct (s_output s) as [|x out] eqn:E.
    - cbn [OpaqueSpec.own map]. cbn [ren_sess s_closed]. destruct (s_closed s); reflexivity.
    - cbn [OpaqueSpec.own map]. destruct w as [|n|].
      + reflexivity.
      + cbv zeta. cbn [with_wait with_output s_output ren_sess s_session].
        rewrite E. change (f (s_session s mod 2 ^ 24) x :: map (f (s_session s mod 2 ^ 24)) out) with (own (s_session s) (x :: out)).
        rewrite own_len, <- own_firstn, <- own_skipn, own_len. cbn [map OpaqueSpec.ren_sobs]. f_equal. f_equal.
        rewrite <- ren_wake_mgr. reflexivity.
      + f_equal; f_equal. change (with_wait (ren_sess s) (s_wait_rd (ren_sess s)) false) with (ren_sess (with_wait s (s_wait_rd s) false)). apply ren_error.
  Qed.
End Renaming.
