(** Session-manager properties in the form used by [Props/ManagerProps.v]. *)
From Coq Require Import NArith List Bool Lia ZArith ZifyBool ZifyNat ZifyN.
From Verif.Model Require Import Bytes Frame Service Control Alist Session Manager.
From Verif.Spec Require Import SessionSpec ManagerSpec.
From Verif.Proofs Require Import BytesFacts AlistFacts SessionProofs SessionPropsPf ManagerProofs.
Import ListNotations.
Local Open Scope N_scope.
Ltac Zify.zify_post_hook ::= Z.div_mod_to_equations.

(** ** Lives *)
Lemma lives_ok W gw f es g h sid :
  mgr_run (mgr_new W gw f) es = (g, h) ->
  life sid h = Some (match find_sess g sid with Some _ => true | None => false end).
Proof. intros H. pose proof (mgr_run_inv W gw f es) as I. rewrite H in I. apply I. Qed.

Lemma projection W gw f es g h sid s :
  mgr_run (mgr_new W gw f) es = (g, h) -> find_sess g sid = Some s ->
  exists svc, sess_run (sess_new svc sid W) (map fst (since_open sid h)) = (s, concat (map snd (since_open sid h))).
Proof. intros H Hs. pose proof (mgr_run_inv W gw f es) as I. rewrite H in I. now apply I. Qed.

(** ** What a poll does *)
Lemma take_pending_fields f s s' f' o :
  sess_take f s = (TkPending, s', f', o) -> s_closed s' = s_closed s /\ s_closed s = false /\ ~ has_report s.
Proof.
  unfold sess_take. destruct (N.ltb_spec 0 (s_written s)) as [|Hw]; [cbn [next_id]; discriminate|]. cbv zeta.
  set (s2 := with_input _ _).
  set (s3 := if N.ltb (nlen (s_input s2)) BUFFER_CAPACITY then wake_tr s2 else s2).
  assert (E : s_closed s3 = s_closed s).
  { unfold s3. destruct (N.ltb _ _); [rewrite closed_wake_tr|]; reflexivity. }
  destruct (firstn _ _) eqn:Ef; [|discriminate]. destruct (s_closed s3) eqn:Ec.
  - destruct (s_error s3); discriminate.
  - intros [= <- _ _]. ssimp. rewrite Ec, <- E. repeat split. unfold has_report. rewrite <- E.
    intros [Hr|[[Hi Hc]|Hr]]; [lia| |discriminate].
    assert (Hl : length (firstn (N.to_nat (N.min (s_incap s) (nlen (s_input s)))) (s_input s)) = 0%nat) by now rewrite Ef.
    rewrite firstn_length in Hl. destruct (s_input s) as [|x l]; [contradiction|]. unfold nlen in Hl. cbn [length] in Hl. lia.
Qed.

(** How much a session still has to say before its end. *)
Definition work (s : sess) : nat :=
  ((if N.ltb 0 (s_written s) then 1 else 0) + (if N.ltb 0 (N.min (s_incap s) (nlen (s_input s))) then 1 else 0))%nat.

Lemma take_msg_work f s m s' f' o :
  sess_take f s = (TkMsg m, s', f', o) -> (work s' < work s)%nat /\ s_closed s' = s_closed s.
Proof.
  unfold sess_take, work. destruct (N.ltb_spec 0 (s_written s)) as [Hw|Hw].
  - cbn [next_id]. intros [= _ <- _ _]. ssimp. split; [|reflexivity]. change (0 <? 0) with false. destruct (N.ltb _ _); cbn; lia.
  - cbv zeta. set (tk := N.min (s_incap s) (nlen (s_input s))). set (s2 := with_input _ _).
    set (s3 := if N.ltb (nlen (s_input s2)) BUFFER_CAPACITY then wake_tr s2 else s2).
    assert (E3 : s_written s3 = s_written s /\ s_incap s3 = s_incap s - tk /\ s_input s3 = skipn (N.to_nat tk) (s_input s) /\ s_closed s3 = s_closed s).
    { unfold s3, wake_tr. destruct (N.ltb _ _); [|repeat split]. destruct (s_tr_waker s2); repeat split. }
    destruct E3 as (E31 & E32 & E33 & E34).
    destruct (firstn (N.to_nat tk) (s_input s)) as [|d0 d] eqn:Ed.
    { destruct (s_closed s3); [destruct (s_error s3)|]; discriminate. }
    assert (Htk : 0 < tk).
    { destruct (N.eq_dec tk 0) as [E0|]; [|lia]. rewrite E0 in Ed. discriminate. }
    intros [= _ <- _ _]. rewrite E31, E32, E33. split; [|exact E34].
    unfold nlen. rewrite skipn_length. unfold tk, nlen in *.
    destruct (N.ltb_spec 0 (s_written s)); [lia|].
    repeat match goal with |- context [N.ltb ?a ?b] => destruct (N.ltb_spec a b) end; lia.
Qed.

(** Outcome of a polling round for a session that has something to report. *)
Inductive served (sid : N) (s : sess) (g' : mgr) (o : list mobs) : Prop :=
| SvOther : find_sess g' sid = Some s -> existsb (message_of sid) o = false -> served sid s g' o
| SvMsg f m s' f' ob : sess_take f s = (TkMsg m, s', f', ob) -> find_sess g' sid = Some s' ->
    In (OMsg (FromSession sid) m) o -> In sid (g_order g') -> served sid s g' o
| SvEnd c m : In (OMsg (EndOf sid c) m) o -> served sid s g' o.

Lemma position_app sid l x : In sid l -> position sid (l ++ [x]) = position sid l.
Proof.
  induction l as [|y l IH]; [intros []|]. cbn [app position]. destruct (N.eqb_spec y sid) as [->|Hn]; [reflexivity|].
  intros [H|H]; [contradiction|]. now rewrite IH.
Qed.
Lemma position_lt sid l : In sid l -> (position sid l < length l)%nat.
Proof.
  induction l as [|y l IH]; [intros []|]. cbn [position length]. destruct (N.eqb_spec y sid); [lia|].
  intros [H|H]; [contradiction|]. specialize (IH H). lia.
Qed.

Lemma poll_loop_serves n : forall g sid s,
  find_sess g sid = Some s -> has_report s -> In sid (g_order g) -> (position sid (g_order g) < n)%nat ->
  let '(r, g', o) := poll_loop n g in
  r = true /\ returned o = 1%nat /\ queued o = 0%nat /\ (length (g_order g') <= length (g_order g))%nat /\ served sid s g' o /\
  (existsb (message_of sid) o = false -> In sid (g_order g') /\ (position sid (g_order g') < position sid (g_order g))%nat).
Proof.
  induction n as [|n IH]; intros g sid s Hs Hr Hin Hp; [lia|]. cbn [poll_loop].
  destruct (g_order g) as [|x rest] eqn:Eo; [destruct Hin|]. cbv zeta. set (g0 := set_order g rest).
  cbn [position] in Hp |- *. destruct (N.eqb_spec x sid) as [->|Hx].
  - change (find_sess g0 sid) with (find_sess g sid). rewrite Hs.
    destruct (sess_take (g_factory g0) s) as [[[t s'] f'] o] eqn:Et.
    assert (Hq : returned [OSess sid (ETake (g_factory g0)) o] = 0%nat) by reflexivity.
    destruct t as [m| | |]; unfold create_hup; cbn [next_id].
    + split; [reflexivity|]. split; [reflexivity|]. split; [reflexivity|]. gsimp. unfold g0. gsimp.
      split; [rewrite app_length; cbn [length]; lia|]. split.
      * eapply SvMsg; [exact Et| |right; left; reflexivity|gsimp; apply in_or_app; right; now left].
        unfold find_sess. gsimp. apply insert_same.
      * cbn [existsb message_of]. rewrite N.eqb_refl. discriminate.
    + repeat split; try reflexivity; unfold g0; gsimp; cbn [length]; try lia.
      * eapply SvEnd. right; left; reflexivity.
      * cbn [existsb message_of] in H. rewrite N.eqb_refl in H. discriminate.
      * cbn [existsb message_of] in H. rewrite N.eqb_refl in H. discriminate.
    + repeat split; try reflexivity; unfold g0; gsimp; cbn [length]; try lia.
      * eapply SvEnd. right; left; reflexivity.
      * cbn [existsb message_of] in H. rewrite N.eqb_refl in H. discriminate.
      * cbn [existsb message_of] in H. rewrite N.eqb_refl in H. discriminate.
    + exfalso. apply take_pending_fields in Et. now apply Et.
  - destruct Hin as [Hin|Hin]; [contradiction|].
    assert (Hx' : N.eqb x sid = false) by now apply N.eqb_neq.
    change (find_sess g0 x) with (find_sess g x). destruct (find_sess g x) as [sx|] eqn:Esx.
    + destruct (sess_take (g_factory g0) sx) as [[[t s'] f'] o] eqn:Et.
      destruct t as [m| | |]; unfold create_hup; cbn [next_id].
      * split; [reflexivity|]. split; [reflexivity|]. split; [reflexivity|]. unfold g0. gsimp.
        split; [rewrite app_length; cbn [length]; lia|]. split.
        -- apply SvOther; [unfold find_sess; gsimp; rewrite insert_other by congruence; exact Hs|].
           cbn [existsb message_of]. now rewrite Hx'.
        -- intros _. rewrite position_app by exact Hin. split; [apply in_or_app; now left|lia].
      * split; [reflexivity|]. split; [reflexivity|]. split; [reflexivity|]. unfold g0. gsimp. cbn [length].
        split; [lia|]. split.
        -- apply SvOther; [unfold find_sess; gsimp; rewrite remove_other by congruence; exact Hs|].
           cbn [existsb message_of]. now rewrite Hx'.
        -- intros _. split; [exact Hin|lia].
      * split; [reflexivity|]. split; [reflexivity|]. split; [reflexivity|]. unfold g0. gsimp. cbn [length].
        split; [lia|]. split.
        -- apply SvOther; [unfold find_sess; gsimp; rewrite remove_other by congruence; exact Hs|].
           cbn [existsb message_of]. now rewrite Hx'.
        -- intros _. split; [exact Hin|lia].
      * set (g2 := set_order (set_sess _ _ _) _).
        assert (Hs2 : find_sess g2 sid = Some s).
        { unfold g2, find_sess. gsimp. rewrite insert_other by congruence. exact Hs. }
        assert (Eo2 : g_order g2 = rest ++ [x]) by reflexivity.
        specialize (IH g2 sid s Hs2 Hr). rewrite Eo2 in IH. rewrite position_app in IH by exact Hin.
        specialize (IH ltac:(apply in_or_app; now left) ltac:(lia)).
        destruct (poll_loop n g2) as [[r g3] os]. destruct IH as (A & B & C & D & E & F).
        rewrite app_length in D. cbn [length] in D |- *.
        split; [exact A|]. split; [exact B|]. split; [exact C|]. split; [lia|]. split.
        -- destruct E as [E1 E2|f0 m s0 f0' ob E1 E2 E3 E4|c m E1].
           ++ now apply SvOther.
           ++ eapply SvMsg; eauto. now right.
           ++ eapply SvEnd. right. exact E1.
        -- cbn [existsb message_of]. intros H. destruct (F H). split; [assumption|lia].
    + assert (Hs2 : find_sess g0 sid = Some s) by exact Hs.
      specialize (IH g0 sid s Hs2 Hr Hin). unfold g0 in IH at 1 4. gsimp.
      specialize (IH ltac:(unfold g0; gsimp; lia)). unfold g0 in IH |- *.
      destruct (poll_loop n (set_order g rest)) as [[r g3] os]. gsimp. destruct IH as (A & B & C & D & E & F).
      cbn [length]. split; [exact A|]. split; [exact B|]. split; [exact C|]. split; [lia|]. split; [exact E|].
      intros H. destruct (F H). split; [assumption|lia].
Qed.

Lemma mgr_poll_serves g sid s :
  find_sess g sid = Some s -> has_report s -> In sid (g_order g) ->
  let '(g', o) := mgr_poll g in
  returned o = 1%nat /\ queued o = 0%nat /\ (length (g_order g') <= length (g_order g))%nat /\ served sid s g' o /\
  (length (g_queue g') <= length (g_queue g))%nat /\
  (existsb (message_of sid) o = false -> In sid (g_order g') /\
     (length (g_queue g') + position sid (g_order g') < length (g_queue g) + position sid (g_order g))%nat).
Proof.
  intros Hs Hr Hin. unfold mgr_poll. destruct (g_queue g) as [|m q] eqn:Eq.
  - pose proof (poll_loop_serves (length (g_order g)) g sid s Hs Hr Hin (position_lt _ _ Hin)) as H.
    pose proof (poll_loop_rest (length (g_order g)) g) as H3.
    destruct (poll_loop (length (g_order g)) g) as [[r g1] o]. destruct H as (-> & B & C & D & E & F).
    destruct H3 as (_ & _ & E3 & _ & _). gsimp. rewrite E3, Eq. cbn [length Nat.add].
    split; [exact B|]. split; [exact C|]. split; [exact D|]. split; [|split; [lia|exact F]].
    destruct E as [E1 E2|f0 m s0 f0' ob E1 E2 E3' E4|c m E1].
    + now apply SvOther.
    + eapply SvMsg; eauto.
    + eapply SvEnd; eauto.
  - gsimp. cbn [length]. split; [reflexivity|]. split; [reflexivity|]. split; [lia|]. split.
    + apply SvOther; [exact Hs|reflexivity].
    + split; [lia|]. intros _. split; [exact Hin|lia].
Qed.

(** ** A closed session is reported *)
Lemma closed_reported_aux n : forall g sid s,
  (forall k, is_live g k = true -> In k (g_order g)) ->
  find_sess g sid = Some s -> s_closed s = true ->
  (length (g_queue g) + position sid (g_order g) + work s * length (g_order g) < n)%nat ->
  exists c m, In (OMsg (EndOf sid c) m) (snd (mgr_run g (repeat MPoll n))).
Proof.
  induction n as [|n IH]; intros g sid s Hl Hs Hc Hn; [lia|]. cbn [repeat mgr_run mgr_step].
  assert (Hin : In sid (g_order g)) by (apply Hl, (live_find _ _ s), Hs).
  assert (Hr : has_report s) by (right; right; exact Hc).
  pose proof (mgr_poll_serves g sid s Hs Hr Hin) as H.
  assert (Hl' : let '(g', _) := mgr_poll g in forall k, is_live g' k = true -> In k (g_order g')).
  { unfold mgr_poll. destruct (g_queue g); [|exact Hl].
    pose proof (poll_loop_order (length (g_order g)) g Hl) as H2.
    destruct (poll_loop (length (g_order g)) g) as [[[] g1] o]; exact H2. }
  destruct (mgr_poll g) as [g1 o1]. destruct H as (_ & _ & D & E & Q & F).
  destruct (mgr_run g1 (repeat MPoll n)) as [g2 o2] eqn:Er. cbn [snd].
  destruct E as [E1 E2|f0 m s0 f0' ob E1 E2 E3 E4|c m E1].
  - destruct (F E2) as [F1 F2]. destruct (IH g1 sid s Hl' E1 Hc) as (c & m & Hm).
    { pose proof (Nat.mul_le_mono_l _ _ (work s) D). lia. }
    rewrite Er in Hm. exists c, m. apply in_or_app. now right.
  - destruct (take_msg_work _ _ _ _ _ _ E1) as [Hw Hc'].
    destruct (IH g1 sid s0 Hl' E2) as (c & m' & Hm).
    { congruence. }
    { pose proof (position_lt _ _ E4). pose proof (Nat.mul_le_mono_l _ _ (work s0) D).
      assert (S (work s0) * length (g_order g) <= work s * length (g_order g))%nat by (apply Nat.mul_le_mono_r; lia).
      lia. }
    rewrite Er in Hm. exists c, m'. apply in_or_app. now right.
  - exists c, m. apply in_or_app. now left.
Qed.

Lemma closed_reported W gw f es g h sid s :
  mgr_run (mgr_new W gw f) es = (g, h) -> find_sess g sid = Some s -> s_closed s = true ->
  exists c m, In (OMsg (EndOf sid c) m)
                 (snd (mgr_run g (repeat MPoll (length (g_queue g) + 3 * length (g_order g))))).
Proof.
  intros H Hs Hc. pose proof (mgr_run_inv W gw f es) as I. rewrite H in I. destruct I as [_ I _ _].
  apply (closed_reported_aux _ g sid s I Hs Hc).
  pose proof (position_lt sid (g_order g) (I sid (live_find _ _ s Hs))).
  assert (work s <= 2)%nat by (unfold work; destruct (N.ltb _ _), (N.ltb _ _); lia).
  assert (work s * length (g_order g) <= 2 * length (g_order g))%nat by (apply Nat.mul_le_mono_r; assumption). lia.
Qed.

(** ** Bounded waiting *)
Lemma nontake_step s e :
  (forall f, e <> ETake f) ->
  let s' := fst (sess_step s e) in s_written s <= s_written s' /\ exists t, s_input s' = s_input s ++ t.
Proof.
  intros Ht. cbv zeta.
  assert (Hsame : forall x y, same_data x y -> s_written x <= s_written y /\ exists t, s_input y = s_input x ++ t).
  { intros x y (_ & _ & E1 & _ & _ & _ & E2). rewrite E1, E2. split; [lia|]. exists []. now rewrite app_nil_r. }
  destruct e as [n|p|f| | | |r w| |]; cbn [sess_step].
  - unfold sess_data_ack. set (x := with_caps _ _ _ _). destruct (Hsame x (wake_mgr x) (same_wake_mgr x)) as [A B].
    split; [exact A|exact B].
  - unfold sess_push. destruct (s_closed s); [cbn [fst]; split; [lia|exists []; now rewrite app_nil_r]|].
    destruct (N.ltb _ _); [apply Hsame, same_set_error|]. cbv zeta. cbn [fst]. set (x := with_output _ _).
    assert (E : s_written x = s_written s /\ s_input x = s_input s) by (split; reflexivity). destruct E as [E1 E2].
    assert (G : same_data x (match s_output x with [] => x | _ => wake_tr x end)).
    { destruct (s_output x); [apply same_refl|]. unfold wake_tr. destruct (s_tr_waker x); repeat split. }
    destruct (Hsame _ _ G) as [A B]. rewrite E1, E2 in *. now split.
  - now destruct (Ht f).
  - apply Hsame, same_close.
  - destruct (s_phase s); apply Hsame; repeat split.
  - destruct (s_phase s); apply Hsame; auto with same.
    eapply same_trans; [apply same_set_error|apply same_phase].
  - unfold transport_poll. destruct (s_phase s); try (apply Hsame; apply same_refl). cbv zeta.
    set (s0 := with_tr s (s_tr_waker s) false). destruct (s_closed s0); [apply Hsame; repeat split|].
    assert (H1 : forall x, let '(_, x', _) := poll_read_input x r in s_written x' = s_written x /\ exists t, s_input x' = s_input x ++ t).
    { intros x.
      assert (Hs2 : forall y, same_data x y -> s_written y = s_written x /\ exists t, s_input y = s_input x ++ t).
      { intros y (_ & _ & E1 & _ & _ & _ & E2). rewrite E1, E2. split; [reflexivity|]. exists []. now rewrite app_nil_r. }
      unfold poll_read_input. destruct (s_closed x); [apply Hs2, same_refl|].
      destruct (N.leb _ _); [apply Hs2; repeat split|]. destruct r as [|b|]; [apply Hs2; repeat split| |].
      - destruct b as [|b0 b]; cbv zeta.
        + apply Hs2. eapply same_trans; [apply (same_wait x false (s_wait_wr x))|].
          eapply same_trans; [apply same_close|]. destruct (s_input (sess_close _)); [apply same_refl|apply same_wake_mgr].
        + set (y := with_input _ _). assert (Ey : s_written y = s_written x /\ s_input y = s_input x ++ b0 :: b) by (split; reflexivity).
          destruct Ey as [Ey1 Ey2]. destruct (s_input y) eqn:Ei; [now destruct (s_input x)|].
          destruct (same_wake_mgr y) as (_ & _ & E1 & _ & _ & _ & E2). rewrite E1, E2, Ey1, Ei. split; [reflexivity|]. eauto.
      - cbv zeta. apply Hs2. eapply same_trans; [apply (same_wait x false (s_wait_wr x))|].
        eapply same_trans; [apply same_set_error|]. destruct (s_input (sess_set_error _)); [apply same_refl|apply same_wake_mgr]. }
    assert (H2 : forall x, let '(_, x', _) := poll_write_output x w in s_written x <= s_written x' /\ s_input x' = s_input x).
    { intros x. unfold poll_write_output. destruct (s_output x); [destruct (s_closed x); split; reflexivity || (ssimp; lia)|].
      destruct w as [|k|]; [split; reflexivity || (ssimp; lia)| |].
      - cbv zeta. set (y := with_caps _ _ _ _).
        destruct (same_wake_mgr y) as (_ & _ & E1 & _ & _ & _ & E2). rewrite E1, E2. unfold y. ssimp. split; [lia|reflexivity].
      - destruct (same_set_error (with_wait x (s_wait_rd x) false)) as (_ & _ & E1 & _ & _ & _ & E2). rewrite E1, E2. ssimp. split; [lia|reflexivity]. }
    specialize (H1 s0). destruct (poll_read_input s0 r) as [[rr s1] o1]. destruct H1 as [A1 [t B1]].
    specialize (H2 s1). destruct (poll_write_output s1 w) as [[rw s2] o2]. destruct H2 as [A2 B2].
    cbn [fst]. destruct (rr || rw); ssimp; rewrite B2, B1; (split; [rewrite A1 in A2; exact A2|exists t; reflexivity]).
  - destruct (s_wait_rd s); apply Hsame; repeat split.
  - destruct (s_wait_wr s); apply Hsame; repeat split.
Qed.

Lemma report_persists s e :
  has_report s -> (forall f, e <> ETake f) ->
  (forall n, e = EDataAck n -> s_incap s + n < 2 ^ 64) ->
  has_report (fst (sess_step s e)).
Proof.
  intros Hr Ht Hack. destruct (nontake_step s e Ht) as [Hw [t Hi]]. cbv zeta in *.
  destruct Hr as [Hr|[[Hr Hp]|Hr]].
  - left. lia.
  - right; left. split; [rewrite Hi; destruct (s_input s); [contradiction|discriminate]|].
    pose proof (incap_step s e) as Hc. destruct (sess_step s e) as [s' o] eqn:Es. cbn [fst] in *.
    assert (Hsent : nlen (sent o) = 0).
    { pose proof (sess_step_ok 0 s e) as H. rewrite Es in H. pose proof (so_in _ _ _ _ _ H) as Hin.
      rewrite Hi in Hin. destruct (sent o) as [|x l] eqn:E; [reflexivity|exfalso].
      assert (Hno : sent o = []).
      { clear - Es Ht. destruct e as [n|p|f| | | |r w| |]; cbn [sess_step] in Es.
        - injection Es as _ <-. reflexivity.
        - unfold sess_push in Es. destruct (s_closed s); [injection Es as _ <-; reflexivity|].
          destruct (N.ltb _ _); injection Es as _ <-; reflexivity.
        - now destruct (Ht f).
        - injection Es as _ <-. reflexivity.
        - destruct (s_phase s); injection Es as _ <-; reflexivity.
        - destruct (s_phase s); injection Es as _ <-; reflexivity.
        - unfold transport_poll in Es. destruct (s_phase s); try (injection Es as _ <-; reflexivity). cbv zeta in Es.
          destruct (s_closed _); [injection Es as _ <-; reflexivity|].
          destruct (poll_read_input _ r) as [[rr s1] o1] eqn:E1. destruct (poll_write_output s1 w) as [[rw s2] o2] eqn:E2.
          injection Es as _ <-. rewrite sent_app.
          assert (A : sent o1 = []).
          { unfold poll_read_input in E1. destruct (s_closed _); [injection E1 as _ _ <-; reflexivity|].
            destruct (N.leb _ _); [injection E1 as _ _ <-; reflexivity|].
            destruct r as [|[|b0 b]|]; injection E1 as _ _ <-; reflexivity. }
          assert (B : sent o2 = []).
          { unfold poll_write_output in E2. destruct (s_output s1); [destruct (s_closed s1); injection E2 as _ _ <-; reflexivity|].
            destruct w; injection E2 as _ _ <-; reflexivity. }
          now rewrite A, B.
        - destruct (s_wait_rd s); injection Es as _ <-; reflexivity.
        - destruct (s_wait_wr s); injection Es as _ <-; reflexivity. }
      congruence. }
    destruct e; try lia; specialize (Hack len eq_refl); lia.
  - right; right. pose proof (closed_step s e Hr) as H. destruct (sess_step s e). apply H.
Qed.

Lemma nontake_incap s e :
  (forall f, e <> ETake f) -> s_incap (fst (sess_step s e)) <= s_incap s + match e with EDataAck n => n | _ => 0 end.
Proof.
  intros _. pose proof (incap_step s e) as H. destruct (sess_step s e) as [s' o]. cbn [fst].
  destruct e; lia.
Qed.

Lemma returned_app a b : returned (a ++ b) = (returned a + returned b)%nat.
Proof. unfold returned. now rewrite filter_app, app_length. Qed.
Lemma queued_app a b : queued (a ++ b) = (queued a + queued b)%nat.
Proof. unfold queued. now rewrite filter_app, app_length. Qed.

Lemma bounded_wait_aux es : forall g sid s g' h',
  (forall k, is_live g k = true -> In k (g_order g)) ->
  find_sess g sid = Some s -> has_report s ->
  mgr_run g es = (g', h') -> ~ In (MClose sid) es -> s_incap s + acks_for sid es < 2 ^ 64 ->
  existsb (message_of sid) h' = false ->
  (polls es <= length (g_queue g) + position sid (g_order g) + queued h')%nat.
Proof.
  induction es as [|e es IH]; intros g sid s g' h' Hl Hs Hr Hrun Hnc Hack Hno; [cbn; lia|].
  cbn [mgr_run] in Hrun.
  assert (Hl' : forall k, is_live (fst (mgr_step g e)) k = true -> In k (g_order (fst (mgr_step g e)))).
  { destruct e as [get svc k0|m|k0|k0 len| |k0 t|ids]; cbn [mgr_step].
    - unfold mgr_connect. destruct (connect_inner g get svc k0) as [[[t mac] a]|].
      + cbv zeta. cbn [fst]. set (g2 := wake_task _).
        destruct (wake_task_fields (set_order g (g_order g ++ [k0]))) as (_ & _ & _ & _ & E5 & E6). fold g2 in E5, E6. gsimp.
        intros k. unfold is_live, find_sess. gsimp. rewrite alookup_insert, E5, E6. intros Hk. apply in_or_app.
        destruct (N.eqb_spec k k0) as [E|]; [subst; right; now left|left; apply Hl; exact Hk].
      + unfold create_hup. cbn [next_id fst]. set (g2 := set_queue _ _).
        destruct (wake_task_fields g2) as (_ & _ & _ & _ & E5 & E6). intros k Hk. rewrite E6.
        rewrite (live_ext g) in Hk by (now rewrite E5). now apply Hl.
    - unfold mgr_send. cbv zeta. destruct (find_sess g (m_session m)) as [x|] eqn:Ex.
      + destruct (sess_step x _) as [x' o]. cbn [fst]. eapply set_sess_order; eauto.
      + unfold create_hup. cbn [next_id fst]. set (g2 := set_queue _ _).
        destruct (wake_task_fields g2) as (_ & _ & _ & _ & E5 & E6). intros k Hk. rewrite E6.
        rewrite (live_ext g) in Hk by (now rewrite E5). now apply Hl.
    - unfold mgr_close. destruct (find_sess g k0) as [x|]; [|exact Hl]. destruct (sess_step x EClose) as [x' o]. cbn [fst].
      intros k. unfold is_live, find_sess. gsimp. rewrite alookup_remove. destruct (N.eqb k k0); [discriminate|]. apply Hl.
    - unfold mgr_data_ack. destruct (find_sess g k0) as [x|] eqn:Ex; [|exact Hl]. destruct (sess_step x _) as [x' o]. cbn [fst].
      eapply set_sess_order; eauto.
    - unfold mgr_poll. destruct (g_queue g); [|exact Hl].
      pose proof (poll_loop_order (length (g_order g)) g Hl) as H2.
      destruct (poll_loop (length (g_order g)) g) as [[[] g1] o]; exact H2.
    - destruct (find_sess g k0) as [x|] eqn:Ex; [|exact Hl]. destruct (sess_step x _) as [x' o]. cbn [fst].
      eapply set_sess_order; eauto.
    - exact Hl. }
  destruct (mgr_step g e) as [g1 o1] eqn:Estep. cbn [fst] in Hl'.
  destruct (mgr_run g1 es) as [g2 o2] eqn:Erun2. injection Hrun as <- <-.
  rewrite existsb_app in Hno. apply orb_false_elim in Hno as [Hno1 Hno2].
  assert (Hin : In sid (g_order g)) by (apply Hl, (live_find _ _ s), Hs).
  assert (Hnc2 : ~ In (MClose sid) es) by (intros Hx; apply Hnc; now right).
  rewrite queued_app.
  change (acks_for sid (e :: es)) with (match e with MDataAck k n => if N.eqb k sid then n else 0 | _ => 0 end + acks_for sid es) in Hack.
  (* an event that is not a poll *)
  assert (Hevent : forall s1, find_sess g1 sid = Some s1 -> has_report s1 ->
     s_incap s1 <= s_incap s + match e with MDataAck k n => if N.eqb k sid then n else 0 | _ => 0 end ->
     (length (g_queue g1) + position sid (g_order g1) <= length (g_queue g) + position sid (g_order g) + queued o1)%nat ->
     e <> MPoll ->
     (polls (e :: es) <= length (g_queue g) + position sid (g_order g) + (queued o1 + queued o2))%nat).
  { intros s1 H1 H2 H3 H4 H5. specialize (IH g1 sid s1 g2 o2 Hl' H1 H2 Erun2 Hnc2 ltac:(lia) Hno2).
    unfold polls in *. cbn [filter]. destruct e; try (now destruct H5); lia. }
  destruct e as [get svc k0|m|k0|k0 len| |k0 t|ids]; cbn [mgr_step] in Estep.
  - unfold mgr_connect in Estep. destruct (connect_inner g get svc k0) as [[[t mac] a]|] eqn:Ec.
    + cbv zeta in Estep. injection Estep as <- <-.
      destruct (wake_task_fields (set_order g (g_order g ++ [k0]))) as (_ & _ & _ & E4 & E5 & E6). gsimp.
      assert (Hk : sid <> k0).
      { intros ->. unfold connect_inner in Ec. rewrite Hs in Ec. discriminate. }
      apply (Hevent s); auto; try lia; try discriminate.
      * unfold find_sess. gsimp. rewrite insert_other, E5 by exact Hk. exact Hs.
      * gsimp. rewrite E4, E6, position_app by exact Hin. lia.
    + unfold create_hup in Estep. cbn [next_id] in Estep. injection Estep as <- <-.
      match goal with |- context [wake_task ?x] => idtac | _ => idtac end.
      match type of Hevent with context [wake_task ?x] => destruct (wake_task_fields x) as (_ & _ & _ & E4 & E5 & E6) end. gsimp.
      apply (Hevent s); auto; try lia; try discriminate.
      * unfold find_sess. rewrite E5. exact Hs.
      * rewrite E4, E6, app_length. cbn. lia.
  - unfold mgr_send in Estep. cbv zeta in Estep. destruct (find_sess g (m_session m)) as [x|] eqn:Ex.
    + destruct (sess_step x (EPush (m_payload m))) as [x' o] eqn:Exs. injection Estep as <- <-. gsimp.
      destruct (N.eq_dec sid (m_session m)) as [Ek|Ek].
      * assert (x = s) by congruence. subst x.
        pose proof (report_persists s (EPush (m_payload m)) Hr ltac:(discriminate) ltac:(discriminate)) as Hr'.
        pose proof (nontake_incap s (EPush (m_payload m)) ltac:(discriminate)) as Hi'. rewrite Exs in Hr', Hi'. cbn [fst] in *.
        apply (Hevent x'); auto; try lia; try discriminate.
        unfold find_sess. gsimp. rewrite Ek. apply insert_same.
      * apply (Hevent s); auto; try lia; try discriminate.
        unfold find_sess. gsimp. rewrite insert_other by exact Ek. exact Hs.
    + unfold create_hup in Estep. cbn [next_id] in Estep. injection Estep as <- <-.
      match type of Hevent with context [wake_task ?x] => destruct (wake_task_fields x) as (_ & _ & _ & E4 & E5 & E6) end. gsimp.
      apply (Hevent s); auto; try lia; try discriminate.
      * unfold find_sess. rewrite E5. exact Hs.
      * rewrite E4, E6, app_length. cbn. lia.
  - unfold mgr_close in Estep. destruct (find_sess g k0) as [x|].
    + destruct (sess_step x EClose) as [x' o]. injection Estep as <- <-. gsimp.
      assert (Hk : sid <> k0) by (intros ->; apply Hnc; now left).
      apply (Hevent s); auto; try lia; try discriminate.
      unfold find_sess. gsimp. rewrite remove_other by exact Hk. exact Hs.
    + injection Estep as <- <-. apply (Hevent s); auto; try lia; try discriminate.
  - unfold mgr_data_ack in Estep. destruct (find_sess g k0) as [x|] eqn:Ex.
    + destruct (sess_step x (EDataAck len)) as [x' o] eqn:Exs. injection Estep as <- <-. gsimp.
      destruct (N.eqb_spec k0 sid) as [Ek|Ek].
      * subst k0. assert (x = s) by congruence. subst x.
        pose proof (report_persists s (EDataAck len) Hr ltac:(discriminate) ltac:(intros ? [= <-]; lia)) as Hr'.
        pose proof (nontake_incap s (EDataAck len) ltac:(discriminate)) as Hi'. rewrite Exs in Hr', Hi'. cbn [fst] in *.
        apply (Hevent x'); auto; try lia; try discriminate.
        unfold find_sess. gsimp. apply insert_same.
      * apply (Hevent s); auto; try lia; try discriminate.
        unfold find_sess. gsimp. rewrite insert_other by congruence. exact Hs.
    + injection Estep as <- <-. apply (Hevent s); auto; try lia; try discriminate.
  - pose proof (mgr_poll_serves g sid s Hs Hr Hin) as Hp. rewrite Estep in Hp.
    destruct Hp as (A & B & D & E & Q & F). destruct (F Hno1) as [F1 F2].
    assert (Hs1 : find_sess g1 sid = Some s).
    { destruct E as [E1 E2|f0 m s0 f0' ob E1 E2 E3 E4|c m E1]; [exact E1|exfalso|exfalso].
      - assert (X : existsb (message_of sid) o1 = true).
        { apply existsb_exists. eexists. split; [exact E3|]. cbn [message_of]. apply N.eqb_refl. }
        congruence.
      - assert (X : existsb (message_of sid) o1 = true).
        { apply existsb_exists. eexists. split; [exact E1|]. cbn [message_of]. apply N.eqb_refl. }
        congruence. }
    specialize (IH g1 sid s g2 o2 Hl' Hs1 Hr Erun2 Hnc2 ltac:(lia) Hno2).
    change (polls (MPoll :: es)) with (S (polls es)). lia.
  - destruct (find_sess g k0) as [x|] eqn:Ex.
    + destruct (sess_step x (sev_of t)) as [x' o] eqn:Exs. injection Estep as <- <-. gsimp.
      destruct (N.eq_dec sid k0) as [Ek|Ek].
      * subst k0. assert (x = s) by congruence. subst x.
        assert (Hnt : forall f, sev_of t <> ETake f) by (destruct t; discriminate).
        assert (Hna : forall n, sev_of t <> EDataAck n) by (destruct t; discriminate).
        pose proof (report_persists s (sev_of t) Hr Hnt ltac:(intros n Hx; now destruct (Hna n))) as Hr'.
        pose proof (nontake_incap s (sev_of t) Hnt) as Hi'. rewrite Exs in Hr', Hi'. cbn [fst] in *.
        apply (Hevent x'); auto; try lia; try discriminate.
        -- unfold find_sess. gsimp. apply insert_same.
        -- destruct t; cbn [sev_of] in Hi'; lia.
      * apply (Hevent s); auto; try lia; try discriminate.
        unfold find_sess. gsimp. rewrite insert_other by exact Ek. exact Hs.
    + injection Estep as <- <-. apply (Hevent s); auto; try lia; try discriminate.
  - injection Estep as <- <-. gsimp. apply (Hevent s); auto; try lia; try discriminate.
Qed.

Lemma bounded_wait W gw f es0 g h sid s es g' h' :
  mgr_run (mgr_new W gw f) es0 = (g, h) ->
  find_sess g sid = Some s -> has_report s ->
  mgr_run g es = (g', h') -> ~ In (MClose sid) es -> s_incap s + acks_for sid es < 2 ^ 64 ->
  existsb (message_of sid) h' = false ->
  (polls es <= length (g_queue g) + position sid (g_order g) + queued h')%nat.
Proof.
  intros H. pose proof (mgr_run_inv W gw f es0) as I. rewrite H in I. destruct I as [_ I _ _].
  intros; eapply bounded_wait_aux; eauto.
Qed.

Lemma live_in_order W gw f es g h sid s :
  mgr_run (mgr_new W gw f) es = (g, h) -> find_sess g sid = Some s -> In sid (g_order g).
Proof.
  intros H Hs. pose proof (mgr_run_inv W gw f es) as I. rewrite H in I. apply I. now apply (live_find _ _ s).
Qed.
