(** Proof of C141. *)
From Coq Require Import NArith ZArith List Bool Lia ZifyBool ZifyNat ZifyN.
From Verif.Model Require Import Bytes Frame Service Control Alist Session Manager Client.
From Verif.Spec Require Import ManagerSpec ClientSpec WireSpec SessionSpec ProgressSpec FairSpec FlowSpec.
From Verif.Proofs Require Import AlistFacts ManagerProofs ManagerPropsPf ClientInv ClientPropsPf ClientPropsPf2 SessionProofs ProgressPf ProgressLift FairPf.
From Verif.Proofs Require WireFinal.
Import ListNotations.
Local Open Scope N_scope.

(** ** One session *)
Definition data_waits (s : sess) : Prop := s_input s <> [] /\ 0 < s_incap s.

Lemma take_data f s : data_waits s ->
  exists m s' f' ob, sess_take f s = (TkMsg m, s', f', ob) /\
    (sent ob <> [] \/ (data_waits s' /\ acks_ahead s = S (acks_ahead s'))).
Proof.
  intros [A B]. unfold sess_take. destruct (N.ltb_spec 0 (s_written s)) as [L|L].
  - do 4 eexists. split; [reflexivity|]. right. split; [split; assumption|]. unfold acks_ahead. cbn [s_output s_written with_caps].
    change (0 <? 0) with false. destruct (N.ltb_spec 0 (s_written s)); [lia|exfalso; lia].
  - cbv zeta. destruct (firstn _ (s_input s)) as [|x d] eqn:D.
    + exfalso. destruct (s_input s) as [|y l] eqn:I; [contradiction|].
      assert (N.to_nat (N.min (s_incap s) (nlen (y :: l))) <> 0)%nat as NZ by (unfold nlen; cbn [length]; lia).
      destruct (N.to_nat (N.min _ _)); [contradiction|]. discriminate D.
    + do 4 eexists. split; [reflexivity|]. left. cbn [sent flat_map app]. discriminate.
Qed.

(** A step of the transport task or of the socket. *)
Lemma transport_keeps s te : data_waits s ->
  data_waits (fst (sess_step s (sev_of te))) /\ (acks_ahead (fst (sess_step s (sev_of te))) <= acks_ahead s)%nat.
Proof.
  intros [A B]. pose proof (nontake_step s (sev_of te) ltac:(destruct te; discriminate)) as [W [x X]]. cbv zeta in *.
  split.
  - split; [rewrite X; destruct (s_input s); [contradiction|discriminate]|].
    pose proof (incap_step s (sev_of te)) as Y. pose proof (sess_step_ok 0 s (sev_of te)) as Z. destruct (sess_step s (sev_of te)) as [s' o] eqn:E. cbn [fst] in *.
    assert (Q : sent o = []).
    { clear - E. destruct te as [| |r w| |]; cbn [sev_of sess_step] in E; try (destruct (s_phase s); injection E as _ <-; reflexivity).
      - unfold transport_poll in E. destruct (s_phase s); try (injection E as _ <-; reflexivity).
        destruct (s_closed _); [injection E as _ <-; reflexivity|].
        destruct (poll_read_input _ r) as [[rr s1] o1] eqn:E1. destruct (poll_write_output s1 w) as [[rw s2] o2] eqn:E2. injection E as _ <-. rewrite sent_app.
        assert (P : sent o1 = []).
        { unfold poll_read_input in E1. destruct (s_closed _); [injection E1 as _ _ <-; reflexivity|].
          destruct (N.leb _ _); [injection E1 as _ _ <-; reflexivity|]. destruct r as [|[|b0 b]|]; injection E1 as _ _ <-; reflexivity. }
        assert (P2 : sent o2 = []).
        { unfold poll_write_output in E2. destruct (s_output s1); [destruct (s_closed s1); injection E2 as _ _ <-; reflexivity|].
          destruct w; injection E2 as _ _ <-; reflexivity. }
        now rewrite P, P2.
      - destruct (s_wait_rd s); injection E as _ <-; reflexivity.
      - destruct (s_wait_wr s); injection E as _ <-; reflexivity. }
    rewrite Q in Y. unfold nlen in Y. cbn [length] in Y. destruct te; cbn [sev_of] in Y; lia.
  - assert (WM : forall y, s_output (wake_mgr y) = s_output y /\ s_written (wake_mgr y) = s_written y) by (intros y; unfold wake_mgr; destruct (s_mgr_waker y); split; reflexivity).
    assert (WT : forall y, s_output (wake_tr y) = s_output y /\ s_written (wake_tr y) = s_written y) by (intros y; unfold wake_tr; destruct (s_tr_waker y); split; reflexivity).
    assert (CL : forall y, s_output (sess_close y) = s_output y /\ s_written (sess_close y) = s_written y)
      by (intros y; unfold sess_close; destruct (WM (wake_tr (with_closed y true (s_error y)))) as [-> ->]; destruct (WT (with_closed y true (s_error y))) as [-> ->]; split; reflexivity).
    assert (SE : forall y, s_output (sess_set_error y) = s_output y /\ s_written (sess_set_error y) = s_written y)
      by (intros y; unfold sess_set_error; destruct (s_closed y); [split; reflexivity|destruct (CL (with_closed y false true)) as [-> ->]; split; reflexivity]).
    assert (EQ : forall a b, s_output a = s_output b /\ s_written a = s_written b -> acks_ahead a = acks_ahead b)
      by (intros a b [P Q]; unfold acks_ahead; now rewrite P, Q).
    destruct te as [| |r w| |]; cbn [sev_of sess_step].
    + destruct (s_phase s); apply Nat.eq_le_incl, EQ; split; reflexivity.
    + destruct (s_phase s); cbn [fst]; [|lia|lia]. apply Nat.eq_le_incl, EQ. destruct (SE s) as [P Q]. cbn [s_output s_written with_phase]. split; assumption.
    + unfold transport_poll. destruct (s_phase s); cbn [fst]; [lia| |lia]. set (s0 := with_tr s (s_tr_waker s) false).
      destruct (s_closed s0); [apply Nat.eq_le_incl, EQ; split; reflexivity|].
      destruct (poll_read_input s0 r) as [[rr s1] o1] eqn:E1. destruct (poll_write_output s1 w) as [[rw s2] o2] eqn:E2.
      assert (P1 : s_output s1 = s_output s /\ s_written s1 = s_written s).
      { unfold poll_read_input in E1. destruct (s_closed _); [injection E1 as _ <- _; split; reflexivity|].
        destruct (N.leb _ _); [injection E1 as _ <- _; split; reflexivity|]. destruct r as [|b|]; [injection E1 as _ <- _; split; reflexivity| |].
        - cbv zeta in E1.
          match type of E1 with context [match s_input ?z with _ => _ end] => set (z0 := z) in E1 end.
          assert (Z0 : s_output z0 = s_output s /\ s_written z0 = s_written s).
          { unfold z0. destruct b; [|split; reflexivity]. destruct (CL (with_wait s0 false (s_wait_wr s0))) as [-> ->]; split; reflexivity. }
          clearbody z0. injection E1 as _ <- _. destruct (s_input z0); [exact Z0|]. destruct (WM z0) as [-> ->]. exact Z0.
        - cbv zeta in E1.
          match type of E1 with context [match s_input ?z with _ => _ end] => set (z0 := z) in E1 end.
          assert (Z0 : s_output z0 = s_output s /\ s_written z0 = s_written s).
          { unfold z0. destruct (SE (with_wait s0 false (s_wait_wr s0))) as [-> ->]; split; reflexivity. }
          clearbody z0. injection E1 as _ <- _. destruct (s_input z0); [exact Z0|]. destruct (WM z0) as [-> ->]. exact Z0. }
      assert (P2 : (acks_ahead s2 <= acks_ahead s1)%nat).
      { unfold poll_write_output in E2. destruct (s_output s1) as [|y l] eqn:O1; [destruct (s_closed s1); injection E2 as _ <- _; apply Nat.eq_le_incl, EQ; split; reflexivity|].
        destruct w as [|n|]; [injection E2 as _ <- _; apply Nat.eq_le_incl, EQ; split; reflexivity| |].
        - cbv zeta in E2. injection E2 as _ <- _.
          match goal with |- (acks_ahead (wake_mgr ?z) <= _)%nat => rewrite (EQ (wake_mgr z) z (WM z)) end.
          unfold acks_ahead. cbn [s_output s_written with_caps with_output with_wait]. rewrite O1.
          match goal with |- context [firstn ?z _] => set (m := z) end. assert (LS : length (skipn m (y :: l)) = (length (y :: l) - m)%nat) by apply skipn_length.
          assert (LF : length (firstn m (y :: l)) = Nat.min m (length (y :: l))) by apply firstn_length.
          unfold nlen. rewrite LS, LF. clearbody m. cbn [length] in *.
          destruct (N.ltb_spec 0 (s_written s1)), (N.ltb_spec 0 (s_written s1 + N.of_nat (Nat.min m (S (length l))))); lia.
        - injection E2 as _ <- _. destruct (SE (with_wait s1 (s_wait_rd s1) false)) as [P Q]. apply Nat.eq_le_incl, EQ. split; [rewrite P|rewrite Q]; reflexivity. }
      assert (P3 : acks_ahead s1 = acks_ahead s) by (apply EQ; exact P1).
      destruct (rr || rw); cbn [fst]; [|lia]. 
      etransitivity; [|rewrite <- P3; exact P2]. apply Nat.eq_le_incl, EQ. split; reflexivity.
    + destruct (s_wait_rd s); apply Nat.eq_le_incl, EQ; split; reflexivity.
    + destruct (s_wait_wr s); apply Nat.eq_le_incl, EQ; split; reflexivity.
Qed.

(** Without acknowledgements of the server either nothing is sent or all that waited, as far as the window allows. *)
Definition no_ack (e : sev) : Prop := match e with EDataAck _ => False | _ => True end.

Lemma all_or_nothing es : forall s, Forall no_ack es ->
  sent (snd (sess_run s es)) = [] \/ N.min (s_incap s) (nlen (s_input s)) <= nlen (sent (snd (sess_run s es))).
Proof.
  induction es as [|e es IH]; intros s H; [left; reflexivity|]. inversion H as [|? ? H1 H2]; subst. cbn [sess_run].
  assert (ST : (sent (snd (sess_step s e)) = [] /\ s_incap s <= s_incap (fst (sess_step s e)) /\ nlen (s_input s) <= nlen (s_input (fst (sess_step s e)))) \/
               N.min (s_incap s) (nlen (s_input s)) <= nlen (sent (snd (sess_step s e)))).
  { pose proof (incap_step s e) as C. pose proof (sess_step_ok 0 s e) as K. destruct (sess_step s e) as [s' o] eqn:E. cbn [fst snd].
    pose proof (so_in _ _ _ _ _ K) as KI. apply (f_equal (@nlen N)) in KI. rewrite !SpinPf.nlen_app' in KI.
    destruct (sent o) as [|x l] eqn:So; [left; split; [reflexivity|]; change (nlen (@nil N)) with 0 in *; destruct e; try destruct H1; lia|right].
    destruct e as [n|p|f| | | |r w| |]; cbn [sess_step] in E.
    3: { unfold sess_take in E. destruct (0 <? s_written s); [injection E as _ <-; discriminate So|]. cbv zeta in E.
         destruct (firstn _ (s_input s)) as [|y d] eqn:D.
         - destruct (s_closed _); [destruct (s_error _)|]; injection E as _ <-; discriminate So.
         - injection E as _ <-. unfold sent in So. cbn [map concat m_payload amsg_new] in So. rewrite app_nil_r in So. rewrite <- So, <- D.
           unfold nlen. rewrite firstn_length. lia. }
    all: exfalso; try destruct H1; revert So E.
    - unfold sess_push. destruct (s_closed s); [intros So [= _ <-]; discriminate So|]. destruct (_ <? _); intros So [= _ <-]; discriminate So.
    - intros So [= _ <-]; discriminate So.
    - destruct (s_phase s); intros So [= _ <-]; discriminate So.
    - destruct (s_phase s); intros So [= _ <-]; discriminate So.
    - unfold transport_poll. destruct (s_phase s); try (intros So [= _ <-]; discriminate So).
      destruct (s_closed _); [intros So [= _ <-]; discriminate So|].
      destruct (poll_read_input _ r) as [[rr s1] o1] eqn:E1. destruct (poll_write_output s1 w) as [[rw s2] o2] eqn:E2. intros So [= _ <-]. rewrite sent_app in So.
      assert (P : sent o1 = []).
      { unfold poll_read_input in E1. destruct (s_closed _); [injection E1 as _ _ <-; reflexivity|].
        destruct (N.leb _ _); [injection E1 as _ _ <-; reflexivity|]. destruct r as [|[|b0 b]|]; injection E1 as _ _ <-; reflexivity. }
      assert (P2 : sent o2 = []).
      { unfold poll_write_output in E2. destruct (s_output s1); [destruct (s_closed s1); injection E2 as _ _ <-; reflexivity|].
        destruct w; injection E2 as _ _ <-; reflexivity. }
      rewrite P, P2 in So. discriminate So.
    - destruct (s_wait_rd s); intros So [= _ <-]; discriminate So.
    - destruct (s_wait_wr s); intros So [= _ <-]; discriminate So. }
  destruct (sess_step s e) as [s' o]. cbn [fst snd] in ST. specialize (IH s' H2). destruct (sess_run s' es) as [s2 o2]. cbn [snd] in *.
  rewrite sent_app, SpinPf.nlen_app'. destruct ST as [(A & B & C)|A]; [|right; lia].
  rewrite A. cbn [app]. destruct IH as [IH|IH]; [left; exact IH|right; lia].
Qed.

(** ** The session manager *)
Lemma own_cons sid x h : own sid (x :: h) = own sid [x] ++ own sid h.
Proof. exact (own_app sid [x] h). Qed.

(** What happened to a session is a run of it. *)
Definition follows (sid : N) (g g' : mgr) (o : list mobs) : Prop :=
  forall s, find_sess g sid = Some s -> forall s', find_sess g' sid = Some s' ->
    sess_run s (map fst (own sid o)) = (s', concat (map snd (own sid o))).

Definition gone (sid : N) (g g' : mgr) : Prop := find_sess g sid = None -> find_sess g' sid = None.

Lemma follows_trans sid g g1 g2 o1 o2 : gone sid g1 g2 -> follows sid g g1 o1 -> follows sid g1 g2 o2 -> follows sid g g2 (o1 ++ o2).
Proof.
  intros G A B s S s' S'. destruct (find_sess g1 sid) as [s1|] eqn:E1; [|rewrite (G E1) in S'; discriminate S'].
  rewrite own_app, !map_app, concat_app, sess_run_app, (A s S s1 E1), (B s1 E1 s' S'). reflexivity.
Qed.

Lemma follows_same sid g g' o : find_sess g' sid = find_sess g sid -> own sid o = [] -> follows sid g g' o.
Proof. intros E N s S s' S'. rewrite N. cbn. congruence. Qed.

Lemma follows_gone sid g g' o : find_sess g' sid = None -> follows sid g g' o.
Proof. intros E s S s' S'. congruence. Qed.

Lemma poll_loop_follows sid n : forall g, let '(_, g', o) := poll_loop n g in gone sid g g' /\ follows sid g g' o.
Proof.
  induction n as [|n IH]; intros g; cbn [poll_loop]; [split; [exact (fun x => x)|now apply follows_same]|].
  destruct (g_order g) as [|x rest]; [apply IH|]. cbv zeta. set (g0 := set_order g rest). change (find_sess g0 x) with (find_sess g x).
  destruct (find_sess g x) as [sx|] eqn:Ex.
  - destruct (sess_take (g_factory g0) sx) as [[[t s'] f'] o] eqn:Et.
    assert (ST : sess_step sx (ETake (g_factory g0)) = (s', o)) by (cbn [sess_step]; rewrite Et; reflexivity).
    assert (INS : forall gg, find_sess gg sid = alookup sid (ainsert x s' (g_sessions g)) -> forall oo, own sid oo = [] ->
              gone sid g gg /\ follows sid g gg (OSess x (ETake (g_factory g0)) o :: oo)).
    { intros gg Eg oo Oo. split.
      - intros Z. rewrite Eg, alookup_insert. destruct (N.eqb_spec sid x) as [->|_]; [rewrite Ex in Z; discriminate Z|exact Z].
      - intros s S s2 S2. rewrite own_cons, Oo, app_nil_r. cbn [own flat_map]. rewrite app_nil_r. rewrite Eg, alookup_insert in S2.
        destruct (N.eqb_spec sid x) as [->|Hn].
        + rewrite N.eqb_refl. cbn [map fst snd concat app]. rewrite app_nil_r. assert (sx = s) by congruence. subst sx. injection S2 as <-.
          cbn [sess_run]. rewrite ST, app_nil_r. reflexivity.
        + destruct (N.eqb_spec x sid) as [Hy|_]; [congruence|]. cbn. unfold find_sess in S. congruence. }
    assert (REM : forall gg, find_sess gg sid = alookup sid (aremove x (g_sessions g)) -> forall oo, own sid oo = [] ->
              gone sid g gg /\ follows sid g gg (OSess x (ETake (g_factory g0)) o :: oo)).
    { intros gg Eg oo Oo. rewrite alookup_remove in Eg. destruct (N.eqb_spec sid x) as [->|Hn].
      - split; [intros _; exact Eg|]. apply follows_gone. exact Eg.
      - split; [intros Z; rewrite Eg; exact Z|]. apply follows_same; [exact Eg|]. rewrite own_cons, Oo. cbn [own flat_map].
        destruct (N.eqb_spec x sid) as [Hy|_]; [congruence|reflexivity]. }
    destruct t as [m| | |]; unfold create_hup; cbn [next_id].
    + apply INS; reflexivity.
    + apply REM; reflexivity.
    + apply REM; reflexivity.
    + set (g2 := set_order (set_sess _ _ _) _). specialize (IH g2). destruct (INS g2 eq_refl [] eq_refl) as [G2 F2].
      destruct (poll_loop n g2) as [[r g3] os]. destruct IH as [G3 F3]. split; [intros Z; exact (G3 (G2 Z))|].
      exact (follows_trans sid g g2 g3 [_] os G3 F2 F3).
  - specialize (IH g0). destruct (poll_loop n g0) as [[r g3] os]. exact IH.
Qed.

Lemma step_follows sid g e g' o : mgr_step g e = (g', o) -> Forall quiet_mgr o -> gone sid g g' /\ follows sid g g' o.
Proof.
  intros H Q.
  assert (ID : forall gg oo, find_sess gg sid = find_sess g sid -> own sid oo = [] -> gone sid g gg /\ follows sid g gg oo).
  { intros gg oo A B. split; [intros Z; rewrite A; exact Z|now apply follows_same]. }
  destruct e as [get svc k0|m|k0|k0 len| |k0 t|ids]; cbn [mgr_step] in H.
  - unfold mgr_connect in H. destruct (connect_inner g get svc k0) as [[[ty mac] a]|].
    + cbv zeta in H. injection H as _ <-. inversion Q as [|? ? Q1 _]; destruct Q1.
    + destruct (create_hup g k0 EC_CONNECTION_ERROR). injection H as _ <-. inversion Q as [|? ? Q1 _]; destruct Q1.
  - unfold mgr_send in H. cbv zeta in H. destruct (find_sess g (m_session m)) as [x|].
    + destruct (sess_step x _) as [x' oo]. injection H as _ <-. inversion Q as [|? ? Q1 _]; destruct Q1.
    + destruct (create_hup g _ EC_CONNECTION_ERROR). injection H as _ <-. inversion Q as [|? ? Q1 _]; destruct Q1.
  - unfold mgr_close in H. destruct (find_sess g k0) as [x|]; [|injection H as <- <-; now apply ID].
    destruct (sess_step x EClose) as [x' oo]. injection H as _ <-. inversion Q as [|? ? Q1 _]; destruct Q1.
  - unfold mgr_data_ack in H. destruct (find_sess g k0) as [x|]; [|injection H as <- <-; now apply ID].
    destruct (sess_step x _) as [x' oo]. injection H as _ <-. inversion Q as [|? ? Q1 _]; destruct Q1.
  - unfold mgr_poll in H. destruct (g_queue g) as [|m q]; [|injection H as <- <-; now apply ID].
    pose proof (poll_loop_follows sid (length (g_order g)) g) as P. destruct (poll_loop _ g) as [[r g1] oo]. destruct r; injection H as <- <-; exact P.
  - destruct (find_sess g k0) as [x|] eqn:Ex; [|injection H as <- <-; now apply ID].
    destruct (sess_step x (sev_of t)) as [x' oo] eqn:Es. injection H as <- <-. split.
    + intros Z. unfold find_sess in *. gsimp. rewrite alookup_insert. destruct (N.eqb_spec sid k0) as [->|_]; [congruence|exact Z].
    + intros s S s2 S2. unfold find_sess in *. gsimp. rewrite alookup_insert in S2. cbn [own flat_map]. rewrite app_nil_r.
      destruct (N.eqb_spec sid k0) as [->|Hn].
      * rewrite N.eqb_refl. cbn [map fst snd concat app sess_run]. assert (x = s) by congruence. subst x. injection S2 as <-. rewrite Es. now rewrite !app_nil_r.
      * destruct (N.eqb_spec k0 sid) as [Hy|_]; [congruence|]. cbn. congruence.
  - injection H as <- <-. now apply ID.
Qed.

Lemma run_follows sid es : forall g g' o, mgr_run g es = (g', o) -> Forall quiet_mgr o -> gone sid g g' /\ follows sid g g' o.
Proof.
  induction es as [|e es IH]; intros g g' o H Q; cbn [mgr_run] in H.
  - injection H as <- <-. split; [exact (fun x => x)|now apply follows_same].
  - destruct (mgr_step g e) as [g1 o1] eqn:E1. destruct (mgr_run g1 es) as [g2 o2] eqn:E2. injection H as <- <-.
    apply Forall_app in Q as [Q1 Q2]. destruct (step_follows sid _ _ _ _ E1 Q1) as [G1 F1]. destruct (IH _ _ _ E2 Q2) as [G2 F2].
    split; [intros Z; exact (G2 (G1 Z))|]. exact (follows_trans _ _ _ _ _ _ G2 F1 F2).
Qed.

(** A poll while data of a session waits. *)
Lemma poll_loop_data n : forall g sid s,
  find_sess g sid = Some s -> data_waits s -> In sid (g_order g) -> (position sid (g_order g) < n)%nat ->
  let '(r, g', o) := poll_loop n g in
  (length (g_order g') <= length (g_order g))%nat /\
  ((find_sess g' sid = Some s /\ In sid (g_order g') /\ (position sid (g_order g') < position sid (g_order g))%nat) \/
   (exists f m s' f' ob, sess_take f s = (TkMsg m, s', f', ob) /\ own sid o = [(ETake f, ob)] /\ find_sess g' sid = Some s' /\ In sid (g_order g'))).
Proof.
  induction n as [|n IH]; intros g sid s Hs Hd Hin Hp; [lia|]. cbn [poll_loop].
  destruct (g_order g) as [|x rest] eqn:Eo; [destruct Hin|]. cbv zeta. set (g0 := set_order g rest). cbn [position] in Hp |- *.
  destruct (N.eqb_spec x sid) as [->|Hx].
  - change (find_sess g0 sid) with (find_sess g sid). rewrite Hs. destruct (take_data (g_factory g0) s Hd) as (m & s' & f' & ob & Et & _). rewrite Et.
    unfold g0. gsimp. split; [rewrite app_length; cbn [length]; lia|]. right. exists (g_factory g), m, s', f', ob. split; [exact Et|].
    split; [cbn [own flat_map]; rewrite N.eqb_refl; reflexivity|]. split; [unfold find_sess; gsimp; apply insert_same|]. apply in_or_app. right. now left.
  - destruct Hin as [Hin|Hin]; [contradiction|]. assert (Hx' : N.eqb x sid = false) by now apply N.eqb_neq.
    change (find_sess g0 x) with (find_sess g x). destruct (find_sess g x) as [sx|] eqn:Esx.
    + destruct (sess_take (g_factory g0) sx) as [[[t s'] f'] o] eqn:Et. destruct t as [m| | |]; unfold create_hup; cbn [next_id].
      * unfold g0. gsimp. split; [rewrite app_length; cbn [length]; lia|]. left.
        split; [unfold find_sess; gsimp; rewrite insert_other by congruence; exact Hs|]. rewrite position_app by exact Hin. split; [apply in_or_app; now left|lia].
      * unfold g0. gsimp. cbn [length]. split; [lia|]. left.
        split; [unfold find_sess; gsimp; rewrite remove_other by congruence; exact Hs|]. split; [exact Hin|lia].
      * unfold g0. gsimp. cbn [length]. split; [lia|]. left.
        split; [unfold find_sess; gsimp; rewrite remove_other by congruence; exact Hs|]. split; [exact Hin|lia].
      * set (g2 := set_order (set_sess _ _ _) _).
        assert (Hs2 : find_sess g2 sid = Some s) by (unfold g2, find_sess; gsimp; rewrite insert_other by congruence; exact Hs).
        assert (Eo2 : g_order g2 = rest ++ [x]) by reflexivity.
        specialize (IH g2 sid s Hs2 Hd). rewrite Eo2 in IH. rewrite position_app in IH by exact Hin.
        specialize (IH ltac:(apply in_or_app; now left) ltac:(lia)). destruct (poll_loop n g2) as [[r g3] os]. destruct IH as [D E].
        rewrite app_length in D. cbn [length] in D |- *. split; [lia|]. destruct E as [(E1 & E2 & E3)|(f & m & s2 & f2 & ob & E1 & E2 & E3 & E4)].
        -- left. split; [exact E1|]. split; [exact E2|lia].
        -- right. exists f, m, s2, f2, ob. split; [exact E1|]. split; [|split; assumption]. rewrite own_cons, E2. cbn [own flat_map]. rewrite Hx'. reflexivity.
    + specialize (IH g0 sid s Hs Hd Hin). unfold g0 in IH at 1. gsimp. specialize (IH ltac:(lia)).
      destruct (poll_loop n g0) as [[r g3] os]. unfold g0 in IH. gsimp. destruct IH as [D E]. cbn [length]. split; [lia|].
      destruct E as [(E1 & E2 & E3)|E]; [left; split; [exact E1|]; split; [exact E2|lia]|right; exact E].
Qed.

Definition own_sent (sid : N) (h : list mobs) : bytes := sent (concat (map snd (own sid h))).
Lemma own_sent_app sid a b : own_sent sid (a ++ b) = own_sent sid a ++ own_sent sid b.
Proof. unfold own_sent. now rewrite own_app, map_app, concat_app, sent_app. Qed.

Lemma forwards es : forall g sid s g' h',
  (forall k, is_live g k = true -> In k (g_order g)) ->
  find_sess g sid = Some s -> data_waits s -> mgr_run g es = (g', h') -> Forall quiet_mgr h' -> own_sent sid h' = [] ->
  (polls es <= length (g_queue g) + position sid (g_order g) + acks_ahead s * length (g_order g))%nat.
Proof.
  induction es as [|e es IH]; intros g sid s g' h' Hl Hs Hd Hrun Hq Hno; [cbn; lia|]. cbn [mgr_run] in Hrun.
  destruct (mgr_step g e) as [g1 o1] eqn:E1. destruct (mgr_run g1 es) as [g2 o2] eqn:E2. injection Hrun as <- <-.
  apply Forall_app in Hq as [Q1 Q2]. rewrite own_sent_app in Hno. apply app_eq_nil in Hno as [N1 N2].
  assert (Hin : In sid (g_order g)) by (apply Hl, (live_find _ _ s), Hs).
  assert (ID : forall gg, gg = g1 -> g_queue gg = g_queue g -> g_order gg = g_order g -> g_sessions gg = g_sessions g -> e <> MPoll ->
    (polls (e :: es) <= length (g_queue g) + position sid (g_order g) + acks_ahead s * length (g_order g))%nat).
  { intros gg -> A B C D. specialize (IH g1 sid s g2 o2). rewrite A, B in IH.
    assert (polls (e :: es) = polls es) as -> by (unfold polls; cbn [filter]; destruct e; try reflexivity; now destruct D).
    apply IH; auto. - intros k. rewrite (live_ext g) by exact C. apply Hl. - unfold find_sess in *. rewrite C. exact Hs. }
  destruct e as [get svc k0|m|k0|k0 len| |k0 t|ids]; cbn [mgr_step] in E1.
  - unfold mgr_connect in E1. destruct (connect_inner g get svc k0) as [[[ty mac] a]|].
    + cbv zeta in E1. injection E1 as _ <-. inversion Q1 as [|? ? X _]; destruct X.
    + destruct (create_hup g k0 EC_CONNECTION_ERROR). injection E1 as _ <-. inversion Q1 as [|? ? X _]; destruct X.
  - unfold mgr_send in E1. cbv zeta in E1. destruct (find_sess g (m_session m)) as [x|].
    + destruct (sess_step x _) as [x' oo]. injection E1 as _ <-. inversion Q1 as [|? ? X _]; destruct X.
    + destruct (create_hup g _ EC_CONNECTION_ERROR). injection E1 as _ <-. inversion Q1 as [|? ? X _]; destruct X.
  - unfold mgr_close in E1. destruct (find_sess g k0) as [x|]; [|injection E1 as <- <-; apply (ID g); auto; discriminate].
    destruct (sess_step x EClose) as [x' oo]. injection E1 as _ <-. inversion Q1 as [|? ? X _]; destruct X.
  - unfold mgr_data_ack in E1. destruct (find_sess g k0) as [x|]; [|injection E1 as <- <-; apply (ID g); auto; discriminate].
    destruct (sess_step x _) as [x' oo]. injection E1 as _ <-. inversion Q1 as [|? ? X _]; destruct X.
  - change (polls (MPoll :: es)) with (S (polls es)). unfold mgr_poll in E1. destruct (g_queue g) as [|m q] eqn:Eq.
    + pose proof (poll_loop_data (length (g_order g)) g sid s Hs Hd Hin (position_lt _ _ Hin)) as P.
      pose proof (poll_loop_order (length (g_order g)) g Hl) as L. pose proof (poll_loop_rest (length (g_order g)) g) as R.
      destruct (poll_loop (length (g_order g)) g) as [[r gg] oo]. destruct R as (_ & _ & R & _ & _). destruct P as [D P].
      assert (F1 : exists a b, g1 = set_task gg a b /\ o1 = oo) by (destruct r; injection E1 as <- <-; do 2 eexists; split; reflexivity).
      destruct F1 as (a & b & -> & ->). clear E1.
      assert (L1 : forall k, is_live (set_task gg a b) k = true -> In k (g_order (set_task gg a b))) by exact L.
      destruct P as [(P1 & P2 & P3)|(f & m & s' & f' & ob & P1 & P2 & P3 & P4)].
      * specialize (IH (set_task gg a b) sid s g2 o2 L1 P1 Hd E2 Q2 N2). gsimp. rewrite R, Eq in IH. cbn [length] in *.
        pose proof (Nat.mul_le_mono_l _ _ (acks_ahead s) D). lia.
      * destruct (take_data f s Hd) as (m0 & s0 & f0 & ob0 & T1 & T2). rewrite P1 in T1. injection T1 as <- <- <- <-.
        unfold own_sent in N1. rewrite P2 in N1. cbn [map snd concat] in N1. rewrite app_nil_r in N1. destruct T2 as [T2|[T2 T3]]; [contradiction|].
        specialize (IH (set_task gg a b) sid s' g2 o2 L1 P3 T2 E2 Q2 N2). gsimp. rewrite R, Eq in IH. cbn [length] in *.
        pose proof (position_lt _ _ P4). pose proof (Nat.mul_le_mono_l _ _ (acks_ahead s') D). rewrite T3. cbn [Nat.mul]. lia.
    + injection E1 as <- <-. set (gg := set_task _ _ _) in *. specialize (IH gg sid s g2 o2 Hl Hs Hd E2 Q2 N2). unfold gg in IH. gsimp. cbn [length]. lia.
  - destruct (find_sess g k0) as [x|] eqn:Ex; [|injection E1 as <- <-; apply (ID g); auto; discriminate].
    destruct (sess_step x (sev_of t)) as [x' oo] eqn:Es. injection E1 as <- <-. gsimp.
    change (polls (MTransport k0 t :: es)) with (polls es).
    pose proof (set_sess_order g k0 x x' Ex Hl) as Hl'.
    destruct (N.eq_dec sid k0) as [->|Hn].
    + assert (x = s) by congruence. subst x. destruct (transport_keeps s t Hd) as [T1 T2]. rewrite Es in T1, T2. cbn [fst] in *.
      specialize (IH (set_sess g k0 x') k0 x' g2 o2 Hl'). gsimp.
      assert (F : find_sess (set_sess g k0 x') k0 = Some x') by (unfold find_sess; gsimp; apply insert_same).
      specialize (IH F T1 E2 Q2 N2). pose proof (Nat.mul_le_mono_r _ _ (length (g_order g)) T2). lia.
    + specialize (IH (set_sess g k0 x') sid s g2 o2 Hl'). gsimp.
      assert (F : find_sess (set_sess g k0 x') sid = Some s) by (unfold find_sess; gsimp; rewrite insert_other by exact Hn; exact Hs).
      exact (IH F Hd E2 Q2 N2).
  - injection E1 as <- <-. apply (ID (set_factory g ids)); auto; discriminate.
Qed.

(** ** The connection *)
Lemma quiet_history h : quiet h -> Forall quiet_mgr (manager_history h).
Proof.
  intros Q. induction Q as [|x h X Q IH]; [constructor|]. change (x :: h) with ([x] ++ h). rewrite mhist_app. apply Forall_app. split; [|exact IH].
  destruct x; try constructor; [exact X|constructor].
Qed.

Lemma quiet_opened sid h : quiet h -> not_opened sid h.
Proof. intros Q t mac a H. unfold quiet in Q. rewrite Forall_forall in Q. exact (Q _ H). Qed.

Lemma from_service_since sid h : forall acc o, acc = read_in (concat (map snd o)) ->
  fold_left (from_service_step sid) h acc = read_in (concat (map snd (fold_left (since_step sid) (manager_history h) o))).
Proof.
  induction h as [|x h IH]; intros acc o E; [exact E|]. cbn [fold_left]. change (x :: h) with ([x] ++ h). rewrite mhist_app.
  rewrite fold_left_app. apply IH. destruct x as [| | |m| |]; cbn [from_service_step manager_history flat_map app fold_left]; try exact E.
  destruct m as [s t mac a|s e oo|s|m|w m]; cbn [since_step]; try exact E.
  - destruct (s =? sid); [reflexivity|exact E].
  - destruct (s =? sid); [|exact E]. rewrite map_app, concat_app. cbn [map snd concat]. rewrite app_nil_r, read_in_app, E. reflexivity.
Qed.

Lemma own_no_ack sid h : Forall quiet_mgr h -> Forall no_ack (map fst (own sid h)).
Proof.
  intros Q. induction Q as [|x h X Q IH]; [constructor|]. rewrite own_cons, map_app. apply Forall_app. split; [|exact IH].
  destruct x as [| s e oo| | |]; try constructor. cbn [own flat_map app]. destruct (s =? sid); [|constructor]. cbn [app map fst]. constructor; [|constructor].
  destruct e; try exact Logic.I. destruct X.
Qed.

Lemma app_prefix {A} (a b c d : list A) : a ++ b = c ++ d -> (length c <= length a)%nat -> exists e, a = c ++ e.
Proof.
  revert a. induction c as [|x c IH]; intros a E L; [exists a; reflexivity|]. destruct a as [|y a]; [cbn in L; lia|].
  cbn [app] in E. injection E as -> E. destruct (IH a E) as [e ->]; [cbn in L; lia|]. exists e. reflexivity.
Qed.

Lemma run_in es : forall s, s_input s ++ read_in (snd (sess_run s es)) = sent (snd (sess_run s es)) ++ s_input (fst (sess_run s es)).
Proof.
  induction es as [|e es IH]; intros s; [apply app_nil_r|]. cbn [sess_run]. pose proof (sess_step_ok 0 s e) as K.
  destruct (sess_step s e) as [s1 o1]. pose proof (so_in _ _ _ _ _ K) as KI. specialize (IH s1). destruct (sess_run s1 es) as [s2 o2]. cbn [fst snd] in *.
  rewrite read_in_app, sent_app, app_assoc, KI, <- !app_assoc. f_equal. exact IH.
Qed.

Lemma flow t i v1 v2 es1 k1 h1 es2 k2 h2 sid s1 s2 :
  connection t i v1 v2 es1 = (k1, h1) -> conn_run k1 es2 = (k2, h2) -> k_result k2 = None ->
  control_has_no_address h1 -> short_ids h1 -> Forall no_input es2 ->
  session k1 sid = Some s1 -> session k2 sid = Some s2 -> (ahead k1 sid s1 + 2 * wakeups es2 < client_polls es2)%nat ->
  starts_with_bytes (data_out sid (h1 ++ h2)) (data_out sid h1 ++ firstn (N.to_nat (s_incap s1)) (s_input s1)).
Proof.
  intros H1 H2 R2 O1 O2 NI S1 S2 L. pose proof (connection_more _ _ _ _ _ _ _ _ _ _ H1 H2) as HH.
  destruct (quiet_run es2 k1 k2 h2 H2 NI) as [Q B]. pose proof (quiet_history h2 Q) as QM.
  assert (R1 : k_result k1 = None).
  { destruct (k_result k1) eqn:X; [|reflexivity]. exfalso. pose proof (result_stays es2 k1) as Y. rewrite X, H2 in Y. apply Y; [discriminate|exact R2]. }
  assert (O1' : control_has_no_address (h1 ++ h2)).
  { intros e m s Hi. apply in_app_or in Hi as [Hi|Hi]; [exact (O1 e m s Hi)|]. exfalso. unfold quiet in Q. rewrite Forall_forall in Q. exact (Q _ Hi). }
  assert (O2' : short_ids (h1 ++ h2)).
  { intros d ty mac a Hi. apply in_app_or in Hi as [Hi|Hi]; [exact (O2 d ty mac a Hi)|]. exfalso. exact (quiet_opened d h2 Q ty mac a Hi). }
  pose proof (proj2 (WireFinal.collected _ _ _ _ _ _ _ sid H1 O1 O2) s1 R1 S1) as C1.
  pose proof (proj2 (WireFinal.collected _ _ _ _ _ _ _ sid HH O1' O2') s2 R2 S2) as C2.
  assert (FS : from_service sid (h1 ++ h2) = from_service sid h1 ++ read_in (concat (map snd (own sid (manager_history h2))))).
  { unfold from_service. rewrite (from_service_since sid (h1 ++ h2) [] [] eq_refl), (from_service_since sid h1 [] [] eq_refl).
    rewrite mhist_app, fold_left_app, (since_own sid (manager_history h2)), map_app, concat_app, read_in_app; [reflexivity|].
    intros ty mac a. apply opened_mgr. exact (quiet_opened sid h2 Q). }
  destruct (moves_run sid es2 k1 k2 h2 H2 R2) as (mes & A & _ & _ & E).
  destruct (run_follows sid mes _ _ _ A QM) as [_ F]. specialize (F s1 S1 s2 S2).
  pose proof (run_in (map fst (own sid (manager_history h2))) s1) as RI. rewrite F in RI. cbn [fst snd] in RI.
  pose proof (all_or_nothing (map fst (own sid (manager_history h2))) s1 (own_no_ack sid _ QM)) as AN. rewrite F in AN. cbn [snd] in AN.
  fold (own_sent sid (manager_history h2)) in RI, AN. set (S := own_sent sid (manager_history h2)) in *.
  assert (D : data_out sid (h1 ++ h2) = data_out sid h1 ++ S).
  { apply (app_inv_tail (s_input s2)). rewrite <- C2, FS, C1, <- !app_assoc. f_equal. exact RI. }
  rewrite D.
  assert (G : (length (firstn (N.to_nat (s_incap s1)) (s_input s1)) <= length S)%nat).
  { destruct AN as [AN|AN]; [|unfold nlen in AN; rewrite firstn_length; lia].
    destruct (s_input s1) as [|x l] eqn:I1; [rewrite firstn_nil; cbn; lia|].
    destruct (N.eq_dec (s_incap s1) 0) as [Z|Z]; [rewrite Z; cbn; lia|]. exfalso.
    assert (DW : data_waits s1) by (split; [rewrite I1; discriminate|lia]).
    destruct (connection_manager _ _ _ _ _ _ _ H1 R1) as [m1 E1]. pose proof (mgr_run_inv 65536 (id_gateway i) 0 m1) as I. rewrite E1 in I. destruct I as [_ I _ _].
    pose proof (forwards mes _ sid s1 _ _ I S1 DW A QM AN) as P. unfold ahead in L. lia. }
  destruct (app_prefix S (s_input s2) (firstn (N.to_nat (s_incap s1)) (s_input s1)) (skipn (N.to_nat (s_incap s1)) (s_input s1) ++ read_in (concat (map snd (own sid (manager_history h2))))))
    as [rest ER]; [rewrite app_assoc, firstn_skipn; symmetry; exact RI|exact G|].
  exists rest. rewrite ER, app_assoc. reflexivity.
Qed.
