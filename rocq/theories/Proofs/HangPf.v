(** Proof of C146. *)
From Coq Require Import NArith ZArith List Bool Lia ZifyBool ZifyNat ZifyN.
From Verif.Model Require Import Bytes Frame Service Control Alist Session Manager Client.
From Verif.Spec Require Import ManagerSpec ClientSpec WireSpec SessionSpec FairSpec HangSpec.
From Verif.Proofs Require Import AlistFacts ManagerProofs ManagerPropsPf ClientInv ClientPropsPf ClientPropsPf2 SessionProofs ProgressPf ProgressLift FairPf FlowPf ChatPf.
Import ListNotations.
Local Open Scope N_scope.

(** ** A session that has ended *)
Definition same (s s' : sess) : Prop :=
  s_closed s' = s_closed s /\ s_error s' = s_error s /\ s_written s' = s_written s /\ s_input s' = s_input s /\
  s_incap s' = s_incap s /\ s_service s' = s_service s /\ s_session s' = s_session s.

Lemma closed_transport s te : s_closed s = true -> same s (fst (sess_step s (sev_of te))).
Proof.
  intros C. destruct te as [| |r w| |]; cbn [sev_of sess_step].
  - destruct (s_phase s); repeat split.
  - destruct (s_phase s); cbn [fst]; try solve [repeat split]. unfold sess_set_error; rewrite C; repeat split.
  - unfold transport_poll. destruct (s_phase s); try solve [repeat split]. cbn [s_closed with_tr]; rewrite C; repeat split.
  - destruct (s_wait_rd s); repeat split.
  - destruct (s_wait_wr s); repeat split.
Qed.

Definition end_code (s : sess) : N := if s_error s then 3 else 0.
Definition words (s : sess) : amsg := amsg_new (s_service s) (s_session s) (firstn (N.to_nat (s_incap s)) (s_input s)).

Lemma closed_take f s : s_closed s = true ->
  let '(t, s', f', _) := sess_take f s in
  match t with
  | TkMsg m => s_closed s' = true /\ s_error s' = s_error s /\ S (last_words s') = last_words s /\
               (s_input s <> [] -> 0 < s_incap s ->
                  m = words s \/ (s_input s' <> [] /\ 0 < s_incap s' /\ words s' = words s))
  | TkEnd => s_error s = false /\ (s_input s = [] \/ s_incap s = 0)
  | TkError => s_error s = true /\ (s_input s = [] \/ s_incap s = 0)
  | TkPending => False
  end.
Proof.
  intros C. unfold sess_take. destruct (N.ltb_spec 0 (s_written s)) as [W|W].
  - unfold next_id. split; [exact C|]. split; [reflexivity|]. split.
    + unfold last_words. cbn [s_written s_input s_incap with_caps]. change (0 <? 0) with false. destruct (N.ltb_spec 0 (s_written s)); [reflexivity|lia].
    + intros A B. right. split; [exact A|]. split; [exact B|reflexivity].
  - cbv zeta. set (s2 := with_input _ _). set (s3 := if nlen (s_input s2) <? BUFFER_CAPACITY then wake_tr s2 else s2).
    assert (E : s_closed s3 = true /\ s_error s3 = s_error s /\ s_written s3 = 0 /\ s_service s3 = s_service s /\ s_session s3 = s_session s /\
                s_input s3 = skipn (N.to_nat (N.min (s_incap s) (nlen (s_input s)))) (s_input s) /\ s_incap s3 = s_incap s - N.min (s_incap s) (nlen (s_input s))).
    { assert (E2 : s_closed s2 = true /\ s_error s2 = s_error s /\ s_written s2 = 0 /\ s_service s2 = s_service s /\ s_session s2 = s_session s /\
                s_input s2 = skipn (N.to_nat (N.min (s_incap s) (nlen (s_input s)))) (s_input s) /\ s_incap s2 = s_incap s - N.min (s_incap s) (nlen (s_input s))).
      { unfold s2. cbn [s_closed s_error s_written s_service s_session s_input s_incap with_input with_caps]. repeat split; [exact C|lia]. }
      unfold s3. destruct (_ <? _); [|exact E2]. unfold wake_tr. destruct (s_tr_waker s2); exact E2. }
    clearbody s3. clear s2. destruct E as (E1 & E2 & E3 & E4 & E5 & E6 & E7).
    assert (F : firstn (N.to_nat (N.min (s_incap s) (nlen (s_input s)))) (s_input s) = firstn (N.to_nat (s_incap s)) (s_input s)).
    { destruct (N.le_gt_cases (s_incap s) (nlen (s_input s))) as [L|L].
      - f_equal. lia.
      - rewrite N.min_r by lia. unfold nlen in *. rewrite Nat2N.id, firstn_all. symmetry. apply firstn_all2. lia. }
    rewrite F. destruct (firstn (N.to_nat (s_incap s)) (s_input s)) as [|x d] eqn:D.
    + assert (K : s_input s = [] \/ s_incap s = 0).
      { destruct (s_input s) as [|y l]; [now left|right]. destruct (N.to_nat (s_incap s)) eqn:Z; [lia|discriminate D]. }
      rewrite E1. rewrite E2. destruct (s_error s) eqn:X; split; auto.
    + split; [exact E1|]. split; [exact E2|]. split.
      * unfold last_words. rewrite E3, E6, E7. change (0 <? 0) with false. destruct (N.ltb_spec 0 (s_written s)); [lia|].
        destruct (s_input s) as [|y l] eqn:I; [rewrite firstn_nil in D; discriminate D|].
        destruct (N.ltb_spec 0 (s_incap s)) as [P|P]; [|assert (s_incap s = 0) as Z by lia; rewrite Z in D; discriminate D].
        destruct (N.le_gt_cases (s_incap s) (nlen (y :: l))) as [L|L].
        -- rewrite N.min_l by exact L. destruct (skipn (N.to_nat (s_incap s)) (y :: l)); [reflexivity|]. destruct (N.ltb_spec 0 (s_incap s - s_incap s)); [lia|reflexivity].
        -- rewrite N.min_r by lia. unfold nlen. rewrite Nat2N.id, skipn_all. reflexivity.
      * intros _ _. left. unfold words. rewrite E4, E5, D. reflexivity.
Qed.

(** ** The hang-up *)
Lemma hup_bytes f sid code : code < 256 -> hang_up sid code (amsg_of_cmsg (mk_hup (u16 f) sid code)).
Proof.
  intros L. split; [reflexivity|]. split; [reflexivity|]. unfold amsg_of_cmsg, amsg_new, cmsg_encode, mk_hup. cbn [m_payload cm_id cm_type cm_body].
  exists (u16 f / 256 mod 256), (u16 f mod 256). change 16777215 with (N.ones 24). rewrite N.land_ones. set (x := sid mod 2 ^ 24).
  change (to_be 2 (u16 f)) with [u16 f / 256 mod 256; u16 f mod 256]. cbn [app]. do 2 f_equal.
  change (to_be 2 5) with [0; 5]. cbn [app]. do 2 f_equal.
  assert (B4 : forall y, to_be 4 y = [y / 16777216 mod 256; y / 65536 mod 256; y / 256 mod 256; y mod 256]).
  { intros y. cbn [to_be app]. now rewrite !N.div_div by lia. }
  cbn [body_encode]. rewrite !B4. cbn [app]. change (2 ^ 24) with 16777216 in x.
  assert (X1 : x / 16777216 mod 256 = 0) by (unfold x; rewrite N.div_small; [reflexivity|apply N.mod_lt; lia]).
  assert (X2 : x / 65536 mod 256 = sid / 65536 mod 256) by (unfold x; lia).
  assert (X3 : x / 256 mod 256 = sid / 256 mod 256) by (unfold x; lia).
  assert (X4 : x mod 256 = sid mod 256) by (unfold x; lia).
  rewrite X1, X2, X3, X4, (N.div_small code 16777216), (N.div_small code 65536), (N.div_small code 256), (N.mod_small code) by lia. reflexivity.
Qed.

(** ** The session manager *)
Lemma poll_loop_closed n : forall g sid s,
  find_sess g sid = Some s -> s_closed s = true -> In sid (g_order g) -> (position sid (g_order g) < n)%nat ->
  let '(r, g', o) := poll_loop n g in
  (length (g_order g') <= length (g_order g))%nat /\
  ((find_sess g' sid = Some s /\ In sid (g_order g') /\ (position sid (g_order g') < position sid (g_order g))%nat) \/
   (exists f m s' f' ob a, sess_take f s = (TkMsg m, s', f', ob) /\ o = a ++ [OMsg (FromSession sid) m] /\ find_sess g' sid = Some s' /\ In sid (g_order g')) \/
   (exists m a, o = a ++ [OMsg (EndOf sid (end_code s)) m] /\ hang_up sid (end_code s) m /\ (s_input s = [] \/ s_incap s = 0))).
Proof.
  induction n as [|n IH]; intros g sid s Hs Hd Hin Hp; [lia|]. cbn [poll_loop].
  destruct (g_order g) as [|x rest] eqn:Eo; [destruct Hin|]. cbv zeta. set (g0 := set_order g rest). cbn [position] in Hp |- *.
  destruct (N.eqb_spec x sid) as [->|Hx].
  - change (find_sess g0 sid) with (find_sess g sid). rewrite Hs. pose proof (closed_take (g_factory g0) s Hd) as T.
    destruct (sess_take (g_factory g0) s) as [[[t s'] f'] ob] eqn:Et. destruct t as [m| | |].
    + unfold g0. gsimp. split; [rewrite app_length; cbn [length]; lia|]. right. left. exists (g_factory g), m, s', f', ob, [OSess sid (ETake (g_factory g)) ob].
      split; [exact Et|]. split; [reflexivity|]. split; [unfold find_sess; gsimp; apply insert_same|]. apply in_or_app. right. now left.
    + unfold create_hup, next_id. destruct T as [T1 T2]. unfold g0. gsimp. cbn [length]. split; [lia|]. right. right. unfold end_code. rewrite T1.
      eexists. exists [OSess sid (ETake (g_factory g)) ob]. split; [reflexivity|]. split; [|exact T2]. apply hup_bytes. reflexivity.
    + unfold create_hup, next_id. destruct T as [T1 T2]. unfold g0. gsimp. cbn [length]. split; [lia|]. right. right. unfold end_code. rewrite T1.
      eexists. exists [OSess sid (ETake (g_factory g)) ob]. split; [reflexivity|]. split; [|exact T2]. apply hup_bytes. reflexivity.
    + destruct T.
  - destruct Hin as [Hin|Hin]; [contradiction|]. assert (Hx' : N.eqb x sid = false) by now apply N.eqb_neq.
    change (find_sess g0 x) with (find_sess g x). destruct (find_sess g x) as [sx|] eqn:Esx.
    + destruct (sess_take (g_factory g0) sx) as [[[t s'] f'] o] eqn:Et. destruct t as [m| | |]; unfold create_hup; cbn [next_id].
      * unfold g0. gsimp. split; [rewrite app_length; cbn [length]; lia|]. left.
        split; [unfold find_sess; gsimp; rewrite insert_other by congruence; exact Hs|]. rewrite position_app by exact Hin. split; [apply in_or_app; now left|lia].
      * unfold g0. gsimp. cbn [length]. split; [lia|]. left.
        split; [unfold find_sess; gsimp; rewrite remove_other by congruence; exact Hs|]. split; [exact Hin|lia].
      * unfold g0. gsimp. cbn [length]. split; [lia|]. left.
        split; [unfold find_sess; gsimp; rewrite remove_other by congruence; exact Hs|]. split; [exact Hin|lia].
      * set (g2 := set_order (set_sess _ _ _) _).
        assert (Hs2 : find_sess g2 sid = Some s) by (unfold g2, find_sess; gsimp; rewrite insert_other by congruence; exact Hs).
        assert (Eo2 : g_order g2 = rest ++ [x]) by reflexivity.
        specialize (IH g2 sid s Hs2 Hd). rewrite Eo2 in IH. rewrite position_app in IH by exact Hin.
        specialize (IH ltac:(apply in_or_app; now left) ltac:(lia)). destruct (poll_loop n g2) as [[r g3] os]. destruct IH as [D E].
        rewrite app_length in D. cbn [length] in D |- *. split; [lia|]. destruct E as [(E1 & E2 & E3)|[(f & m & s2 & f2 & ob & a & E1 & E2 & E3 & E4)|(m & a & E1 & E2 & E3)]].
        -- left. split; [exact E1|]. split; [exact E2|lia].
        -- right. left. exists f, m, s2, f2, ob, (OSess x (ETake (g_factory g0)) o :: a). split; [exact E1|]. split; [rewrite E2; reflexivity|split; assumption].
        -- right. right. exists m, (OSess x (ETake (g_factory g0)) o :: a). split; [rewrite E1; reflexivity|split; assumption].
    + specialize (IH g0 sid s Hs Hd Hin). unfold g0 in IH at 1. gsimp. specialize (IH ltac:(lia)).
      destruct (poll_loop n g0) as [[r g3] os]. unfold g0 in IH. gsimp. destruct IH as [D E]. cbn [length]. split; [lia|].
      destruct E as [(E1 & E2 & E3)|E]; [left; split; [exact E1|]; split; [exact E2|lia]|right; exact E].
Qed.

Definition told (sid : N) (s : sess) (h : list mobs) : Prop :=
  exists a m b, h = a ++ OMsg (EndOf sid (end_code s)) m :: b /\ hang_up sid (end_code s) m /\
    (s_input s <> [] -> 0 < s_incap s -> exists a1 a2, a = a1 ++ OMsg (FromSession sid) (words s) :: a2).

Lemma told_later sid s h1 h2 : told sid s h2 -> told sid s (h1 ++ h2).
Proof.
  intros (a & m & b & A & B & C). exists (h1 ++ a), m, b. split; [rewrite A, <- app_assoc; reflexivity|]. split; [exact B|].
  intros X Y. destruct (C X Y) as (a1 & a2 & ->). exists (h1 ++ a1), a2. now rewrite <- app_assoc.
Qed.
Lemma told_same sid s s' h : same s s' -> told sid s' h -> told sid s h.
Proof.
  intros (A & B & C & D & E & F & G) (a & m & b & X & Y & Z). unfold told, words, end_code in *. rewrite B, D, E, F, G in *. exists a, m, b. repeat split; auto; apply Y.
Qed.

Lemma closing es : forall g sid s g' h',
  (forall k, is_live g k = true -> In k (g_order g)) ->
  find_sess g sid = Some s -> s_closed s = true -> mgr_run g es = (g', h') -> Forall quiet_mgr h' ->
  (length (g_queue g) + position sid (g_order g) + last_words s * length (g_order g) < polls es)%nat -> told sid s h'.
Proof.
  induction es as [|e es IH]; intros g sid s g' h' Hl Hs Hd Hrun Hq Hp; [cbn in Hp; lia|]. cbn [mgr_run] in Hrun.
  destruct (mgr_step g e) as [g1 o1] eqn:E1. destruct (mgr_run g1 es) as [g2 o2] eqn:E2. injection Hrun as <- <-.
  apply Forall_app in Hq as [Q1 Q2].
  assert (Hin : In sid (g_order g)) by (apply Hl, (live_find _ _ s), Hs).
  assert (ID : forall gg, gg = g1 -> g_queue gg = g_queue g -> g_order gg = g_order g -> g_sessions gg = g_sessions g -> e <> MPoll -> told sid s (o1 ++ o2)).
  { intros gg -> A B C D. apply told_later. refine (IH g1 sid s g2 o2 _ _ Hd E2 Q2 _).
    - intros k. rewrite (live_ext g) by exact C. rewrite B. apply Hl.
    - unfold find_sess in *. rewrite C. exact Hs.
    - rewrite A, B. assert (P : polls (e :: es) = polls es) by (unfold polls; cbn [filter]; destruct e; try reflexivity; now destruct D). rewrite P in Hp. exact Hp. }
  destruct e as [get svc k0|m|k0|k0 len| |k0 t|ids]; cbn [mgr_step] in E1.
  - unfold mgr_connect in E1. destruct (connect_inner g get svc k0) as [[[ty mac] a]|].
    + cbv zeta in E1. injection E1 as _ <-. inversion Q1 as [|? ? X _]; destruct X.
    + destruct (create_hup g k0 EC_CONNECTION_ERROR). injection E1 as _ <-. inversion Q1 as [|? ? X _]; destruct X.
  - unfold mgr_send in E1. cbv zeta in E1. destruct (find_sess g (m_session m)) as [x|].
    + destruct (sess_step x _) as [x' oo]. injection E1 as _ <-. inversion Q1 as [|? ? X _]; destruct X.
    + destruct (create_hup g _ EC_CONNECTION_ERROR). injection E1 as _ <-. inversion Q1 as [|? ? X _]; destruct X.
  - unfold mgr_close in E1. destruct (find_sess g k0) as [x|]; [|injection E1 as <- <-; apply (ID g); auto; discriminate].
    destruct (sess_step x EClose) as [x' oo]. injection E1 as _ <-. inversion Q1 as [|? ? X _]; destruct X.
  - unfold mgr_data_ack in E1. destruct (find_sess g k0) as [x|]; [|injection E1 as <- <-; apply (ID g); auto; discriminate].
    destruct (sess_step x _) as [x' oo]. injection E1 as _ <-. inversion Q1 as [|? ? X _]; destruct X.
  - change (polls (MPoll :: es)) with (S (polls es)) in Hp. unfold mgr_poll in E1. destruct (g_queue g) as [|m q] eqn:Eq.
    + pose proof (poll_loop_closed (length (g_order g)) g sid s Hs Hd Hin (position_lt _ _ Hin)) as P.
      pose proof (poll_loop_order (length (g_order g)) g Hl) as L. pose proof (poll_loop_rest (length (g_order g)) g) as R.
      destruct (poll_loop (length (g_order g)) g) as [[r gg] oo]. destruct R as (_ & _ & R & _ & _). destruct P as [D P].
      assert (F1 : exists a b, g1 = set_task gg a b /\ o1 = oo) by (destruct r; injection E1 as <- <-; do 2 eexists; split; reflexivity).
      destruct F1 as (a & b & -> & ->). clear E1.
      assert (L1 : forall k, is_live (set_task gg a b) k = true -> In k (g_order (set_task gg a b))) by exact L.
      destruct P as [(P1 & P2 & P3)|[(f & m & s' & f' & ob & a0 & P1 & P2 & P3 & P4)|(m & a0 & P1 & P2 & P3)]].
      * apply told_later. refine (IH (set_task gg a b) sid s g2 o2 L1 P1 Hd E2 Q2 _). gsimp. rewrite R, Eq. cbn [length] in *.
        pose proof (Nat.mul_le_mono_l _ _ (last_words s) D). lia.
      * pose proof (closed_take f s Hd) as T. rewrite P1 in T. destruct T as (T1 & T2 & T3 & T4).
        assert (K : told sid s' o2).
        { refine (IH (set_task gg a b) sid s' g2 o2 L1 P3 T1 E2 Q2 _). gsimp. rewrite R, Eq. cbn [length] in *.
          pose proof (position_lt _ _ P4). pose proof (Nat.mul_le_mono_l _ _ (last_words s') D). rewrite <- T3 in Hp. cbn [Nat.mul] in Hp. lia. }
        destruct K as (x & m1 & y & K1 & K2 & K3). unfold told. assert (EC : end_code s' = end_code s) by (unfold end_code; now rewrite T2). rewrite EC in *.
        exists (oo ++ x), m1, y. split; [rewrite K1, <- app_assoc; reflexivity|]. split; [exact K2|]. intros X Y. destruct (T4 X Y) as [->|(Z1 & Z2 & Z3)].
        -- exists a0, x. rewrite P2, <- app_assoc. reflexivity.
        -- destruct (K3 Z1 Z2) as (a1 & a2 & ->). exists (oo ++ a1), a2. rewrite Z3, <- app_assoc. reflexivity.
      * exists a0, m, o2. split; [rewrite P1, <- app_assoc; reflexivity|]. split; [exact P2|]. intros X Y. exfalso. destruct P3 as [P3|P3]; [contradiction|lia].
    + injection E1 as <- <-. apply told_later. refine (IH _ sid s g2 o2 _ _ Hd E2 Q2 _); [exact Hl|exact Hs|]. gsimp. cbn [length] in Hp. lia.
  - destruct (find_sess g k0) as [x|] eqn:Ex; [|injection E1 as <- <-; apply (ID g); auto; discriminate].
    destruct (sess_step x (sev_of t)) as [x' oo] eqn:Es. injection E1 as <- <-. gsimp.
    change (polls (MTransport k0 t :: es)) with (polls es) in Hp.
    pose proof (set_sess_order g k0 x x' Ex Hl) as Hl'. apply told_later.
    destruct (N.eq_dec sid k0) as [->|Hn].
    + assert (x = s) by congruence. subst x. pose proof (closed_transport s t Hd) as T. rewrite Es in T. cbn [fst] in *.
      apply (told_same k0 s x' _ T). refine (IH (set_sess g k0 x') k0 x' g2 o2 Hl' _ _ E2 Q2 _); gsimp.
      * unfold find_sess. gsimp. apply insert_same.
      * destruct T as (-> & _). exact Hd.
      * assert (LW : last_words x' = last_words s) by (destruct T as (_ & _ & A & B & C & _); unfold last_words; now rewrite A, B, C). rewrite LW. exact Hp.
    + refine (IH (set_sess g k0 x') sid s g2 o2 Hl' _ Hd E2 Q2 Hp). unfold find_sess; gsimp; rewrite insert_other by exact Hn; exact Hs.
  - injection E1 as <- <-. apply (ID (set_factory g ids)); auto; discriminate.
Qed.

(** ** What is handed over is sent *)
Definition no_msg (o : list cobs) : Prop := forall w m, ~ In (XMgr (OMsg w m)) o.
Definition silent (o : list mobs) : Prop := forall w m, ~ In (OMsg w m) o.
Lemma silent_lift o : silent o -> no_msg (map XMgr o).
Proof. intros S w m H. apply in_map_iff in H as (x & E & I). injection E as ->. exact (S w m I). Qed.
Lemma no_msg_app a b : no_msg a -> no_msg b -> no_msg (a ++ b).
Proof. intros A B w m H. apply in_app_or in H as [H|H]; [exact (A w m H)|exact (B w m H)]. Qed.

Definition said (p : polled) (o : list cobs) : Prop :=
  no_msg o \/ exists a w m, p = PReady m /\ o = a ++ [XMgr (OMsg w m)] /\ no_msg a.

Lemma loop_silent n : forall g, let '(r, _, o) := poll_loop n g in silent o \/ exists a w m, r = true /\ o = a ++ [OMsg w m] /\ silent a.
Proof.
  induction n as [|n IH]; intros g; cbn [poll_loop]; [left; intros ? ? []|]. destruct (g_order g) as [|x rest]; [apply IH|]. cbv zeta.
  destruct (find_sess _ x) as [s|]; [|apply IH]. destruct (sess_take _ s) as [[[t s'] f'] o].
  assert (ONE : forall w m, exists a w0 m0, true = true /\ [OSess x (ETake (g_factory (set_order g rest))) o; OMsg w m] = a ++ [OMsg w0 m0] /\ silent a).
  { intros w m. exists [OSess x (ETake (g_factory (set_order g rest))) o], w, m. split; [reflexivity|]. split; [reflexivity|]. intros w1 m1 [X|[]]; discriminate X. }
  destruct t; unfold create_hup, next_id; try (right; apply ONE).
  match goal with |- context [poll_loop n ?gg] => specialize (IH gg); destruct (poll_loop n gg) as [[r g3] os] end.
  destruct IH as [A|(a & w & m & A & B & C)].
  - left. intros w m [X|X]; [discriminate X|exact (A w m X)].
  - right. exists (OSess x (ETake (g_factory (set_order g rest))) o :: a), w, m. split; [exact A|]. split; [rewrite B; reflexivity|]. intros w1 m1 [X|X]; [discriminate X|exact (C w1 m1 X)].
Qed.

Lemma silent_polled o : silent o -> polled_msg o = None.
Proof. induction o as [|x o IH]; intros S; [reflexivity|]. destruct x; cbn [polled_msg]; try (apply IH; intros ? ? H; exact (S _ _ (or_intror H))). exfalso; exact (S _ _ (or_introl eq_refl)). Qed.
Lemma polled_end a w m : silent a -> polled_msg (a ++ [OMsg w m]) = Some m.
Proof. induction a as [|x o IH]; intros S; [reflexivity|]. destruct x; cbn [polled_msg app]; try (apply IH; intros ? ? H; exact (S _ _ (or_intror H))). exfalso; exact (S _ _ (or_introl eq_refl)). Qed.

Lemma ctx_said c : let '(p, _, o) := ctx_poll c in said p o.
Proof.
  unfold ctx_poll. destruct (is_closed c); [left; intros ? ? []|]. destruct (c_messages c) as [|x q]; [|left; intros ? ? []].
  assert (M : let '(g, o) := mgr_poll (c_mgr c) in silent o \/ exists a w m, o = a ++ [OMsg w m] /\ silent a).
  { unfold mgr_poll. destruct (g_queue (c_mgr c)) as [|y q].
    - pose proof (loop_silent (length (g_order (c_mgr c))) (c_mgr c)) as L. destruct (poll_loop _ _) as [[r g1] o].
      assert (L' : silent o \/ exists a w m, o = a ++ [OMsg w m] /\ silent a) by (destruct L as [L|(a & w & m & _ & A & B)]; [now left|right; exists a, w, m; now split]).
      destruct r; exact L'.
    - right. exists [], FromQueue, y. split; [reflexivity|]. intros ? ? []. }
  destruct (mgr_poll (c_mgr c)) as [g o]. destruct M as [M|(a & w & m & M1 & M2)].
  - rewrite (silent_polled o M). left. now apply silent_lift.
  - rewrite M1, (polled_end a w m M2). right. exists (map XMgr a), w, m. split; [reflexivity|]. split; [rewrite map_app; reflexivity|now apply silent_lift].
Qed.

Lemma step_silent g e : e <> MPoll -> silent (snd (mgr_step g e)).
Proof.
  intros NP. destruct e as [get svc k0|m|k0|k0 len| |k0 t|ids]; cbn [mgr_step].
  - unfold mgr_connect. destruct (connect_inner g get svc k0) as [[[ty mac] a]|]; [|destruct (create_hup _ _ _)]; intros ? ? [X|[]]; discriminate X.
  - unfold mgr_send. cbv zeta. destruct (find_sess g _) as [x|]; [destruct (sess_step x _)|destruct (create_hup _ _ _)]; intros ? ? [X|[]]; discriminate X.
  - unfold mgr_close. destruct (find_sess g k0) as [x|]; [destruct (sess_step x _)|intros ? ? []]. intros ? ? [X|[X|[]]]; discriminate X.
  - unfold mgr_data_ack. destruct (find_sess g k0) as [x|]; [destruct (sess_step x _)|intros ? ? []]. intros ? ? [X|[]]; discriminate X.
  - now destruct NP.
  - destruct (find_sess g k0) as [x|]; [destruct (sess_step x _)|intros ? ? []]. intros ? ? [X|[]]; discriminate X.
  - intros ? ? [].
Qed.

(** With a silent server only the watchdog and the transport tasks come in between. *)
Lemma send_no_msg t c m : no_msg (snd (send_control t c m)).
Proof. unfold send_control. cbn [c_task set_messages]. destruct (c_task c); intros ? ? [X|[]]; discriminate X. Qed.
Lemma time_no_msg t c v0 v1 v2 : no_msg (snd (time_event t c v0 v1 v2)).
Proof.
  unfold time_event. destruct (c_established c); [|intros ? ? []].
  assert (A : no_msg (snd (if Z.leb PING_PERIOD (t - c_last_ping c) then send_ping t c else (c, [])))).
  { destruct (Z.leb _ _); [|intros ? ? []]. unfold send_ping, c_next_id, next_id, send_unconfirmed.
    match goal with |- context [send_control ?a ?b ?d] => pose proof (send_no_msg a b d) as H; destruct (send_control a b d) as [c2 o2] end. exact H. }
  destruct (if Z.leb PING_PERIOD (t - c_last_ping c) then send_ping t c else (c, [])) as [c1 o1]. cbn [snd] in A.
  assert (B : no_msg (snd (if Z.leb UPDATE_CHECK_PERIOD (t - c_last_check c1) then check_for_updates t c1 v0 v1 v2 else (c1, [])))).
  { destruct (Z.leb _ _); [|intros ? ? []]. unfold check_for_updates. destruct (_ =? _); [intros ? ? []|]. unfold send_update, c_next_id, next_id.
    match goal with |- context [send_control ?a ?b ?d] => pose proof (send_no_msg a b d) as H; destruct (send_control a b d) as [c2 o2] end. exact H. }
  destruct (if Z.leb UPDATE_CHECK_PERIOD (t - c_last_check c1) then check_for_updates t c1 v0 v1 v2 else (c1, [])) as [c2 o2]. cbn [snd] in *. now apply no_msg_app.
Qed.

(** Every message handed over is sent next. *)
Definition sends_next (o : list cobs) : Prop := forall a w m b, o = a ++ XMgr (OMsg w m) :: b -> exists b', b = XSent m :: b'.
Lemma next_none o : no_msg o -> sends_next o.
Proof. intros N a w m b ->. exfalso. apply (N w m). apply in_or_app. right. now left. Qed.
Lemma next_app a b : sends_next a -> sends_next b -> sends_next (a ++ b).
Proof.
  intros A B x w m y E. destruct (le_lt_dec (length a) (length x)) as [L|L].
  - destruct (app_prefix x (XMgr (OMsg w m) :: y) a b (eq_sym E) L) as [z ->]. rewrite <- app_assoc in E. apply app_inv_head in E. exact (B z w m y E).
  - destruct (app_prefix a b (x ++ [XMgr (OMsg w m)]) y) as [z Z]; [rewrite <- app_assoc; exact E|rewrite app_length; cbn [length]; lia|].
    assert (E2 : a = x ++ XMgr (OMsg w m) :: z) by (rewrite Z, <- app_assoc; reflexivity).
    destruct (A x w m z E2) as [z' ->]. exists (z' ++ b). rewrite E2, <- app_assoc in E. apply app_inv_head in E. cbn [app] in E. now injection E as <-.
Qed.
Lemma said_next p o : said p o -> sends_next (o ++ match p with PReady m => [XSent m] | _ => [] end).
Proof.
  intros [N|(a & w & m & -> & -> & N)].
  - apply next_none. apply no_msg_app; [exact N|]. destruct p; intros w0 m0 X; try destruct X. discriminate. assumption.
  - rewrite <- app_assoc. cbn [app]. apply (next_app a); [now apply next_none|]. intros x w0 m0 y E. destruct x as [|x1 [|x2 [|x3 x]]]; try discriminate E.
    + cbn [app] in E. injection E as _ <- <-. now exists [].
Qed.

Lemma step_next k e k' o : conn_step k e = (k', o) -> no_input e -> sends_next o.
Proof.
  unfold conn_step. intros H NI. destruct (k_result k); [injection H as _ <-; apply next_none; intros ? ? []|]. destruct e as [items|t v0 v1 v2| |sid te].
  - destruct items as [|i items]; [|destruct NI]. cbn [client_poll client_loop] in H. pose proof (ctx_said (k_ctx k)) as S. destruct (ctx_poll (k_ctx k)) as [[p c1] o1].
    apply said_next in S. destruct p; cbn [goes_on] in *; injection H as _ <-; try rewrite app_nil_r in S; exact S.
  - destruct (is_closed (k_ctx k)); [injection H as _ <-; apply next_none; intros ? ? []|].
    pose proof (time_no_msg t (k_ctx k) v0 v1 v2) as T. destruct (time_event t (k_ctx k) v0 v1 v2) as [[r c1] o1]. cbn [snd] in T. injection H as _ <-. apply next_none.
    intros w m [X|X]; [discriminate X|exact (T w m X)].
  - injection H as _ <-. apply next_none. intros ? ? [].
  - pose proof (step_silent (c_mgr (k_ctx k)) (MTransport sid te) ltac:(discriminate)) as S. destruct (mgr_step _ _) as [g og]. cbn [lift_mgr snd] in *. injection H as _ <-.
    apply next_none. now apply silent_lift.
Qed.
Lemma run_next es : forall k k' o, conn_run k es = (k', o) -> Forall no_input es -> sends_next o.
Proof.
  induction es as [|e es IH]; intros k k' o H F; cbn [conn_run] in H; [injection H as _ <-; apply next_none; intros ? ? []|]. inversion F as [|? ? F1 F2]; subst.
  destruct (conn_step k e) as [k1 o1] eqn:E1. destruct (conn_run k1 es) as [k2 o2] eqn:E2. injection H as _ <-. apply next_app; [exact (step_next _ _ _ _ E1 F1)|exact (IH _ _ _ E2 F2)].
Qed.

Lemma mhist_split h : forall a x b, manager_history h = a ++ x :: b -> exists A B, h = A ++ XMgr x :: B /\ manager_history A = a /\ manager_history B = b.
Proof.
  induction h as [|y h IH]; intros a x b E; [destruct a; discriminate E|]. change (y :: h) with ([y] ++ h) in E. rewrite mhist_app in E.
  assert (SK : manager_history [y] = [] -> exists A B, y :: h = A ++ XMgr x :: B /\ manager_history A = a /\ manager_history B = b).
  { intros Z. rewrite Z in E. destruct (IH a x b E) as (A & B & -> & <- & <-). exists (y :: A), B. split; [reflexivity|]. split; [|reflexivity].
    change (y :: A) with ([y] ++ A). rewrite mhist_app, Z. reflexivity. }
  destruct y as [| | |z| |]; try (apply SK; reflexivity). cbn [manager_history flat_map app] in E. destruct a as [|z' a]; cbn [app] in E.
  - injection E as -> <-. exists [], h. repeat split.
  - injection E as -> E. destruct (IH a x b E) as (A & B & -> & <- & <-). exists (XMgr z' :: A), B. repeat split.
Qed.

Lemma told_sent t i v1 v2 es1 k1 h1 es2 k2 h2 sid s1 :
  connection t i v1 v2 es1 = (k1, h1) -> conn_run k1 es2 = (k2, h2) -> k_result k2 = None -> Forall no_input es2 ->
  session k1 sid = Some s1 -> s_closed s1 = true -> (before_end k1 sid s1 + 2 * wakeups es2 < client_polls es2)%nat ->
  exists m, In (XSent m) h2 /\ hang_up sid (if s_error s1 then 3 else 0) m /\
    (s_input s1 <> [] -> 0 < s_incap s1 ->
     exists d, data_of (s_service s1) sid (firstn (N.to_nat (s_incap s1)) (s_input s1)) d /\ sent_before d m h2).
Proof.
  intros H1 H2 R2 NI S1 C1 L. destruct (quiet_run es2 k1 k2 h2 H2 NI) as [Q B]. pose proof (quiet_history h2 Q) as QM.
  assert (R1 : k_result k1 = None).
  { destruct (k_result k1) eqn:X; [|reflexivity]. exfalso. pose proof (result_stays es2 k1) as Y. rewrite X, H2 in Y. apply Y; [discriminate|exact R2]. }
  destruct (connection_manager _ _ _ _ _ _ _ H1 R1) as [m1 E1]. pose proof (mgr_run_inv 65536 (id_gateway i) 0 m1) as I. rewrite E1 in I. destruct I as [HI I _ _].
  destruct (moves_run sid es2 k1 k2 h2 H2 R2) as (mes & A & _ & _ & E).
  assert (T : told sid s1 (manager_history h2)).
  { refine (closing mes _ sid s1 _ _ I S1 C1 A QM _). unfold before_end in L. lia. }
  pose proof (run_next es2 k1 k2 h2 H2 NI) as SN.
  destruct T as (a & m & b & T1 & T2 & T3). destruct (mhist_split h2 a _ b T1) as (X & Y & HX & MX & _). destruct (SN X _ m Y HX) as [Y' ->].
  exists m. split; [rewrite HX; apply in_or_app; right; right; now left|]. split; [exact T2|]. intros D1 D2. destruct (T3 D1 D2) as (a1 & a2 & Ea).
  rewrite Ea in MX. destruct (mhist_split X a1 _ a2 MX) as (U & V & HU & _ & _).
  exists (words s1). split.
  { unfold words, data_of, amsg_new. cbn [m_service m_session m_payload]. split; [reflexivity|]. split; [|reflexivity].
    destruct (ho_sess _ _ _ HI sid s1 S1) as [svc RS]. pose proof (run_ok_holds svc sid 65536 (map fst (since_open sid (manager_history h1)))) as RO.
    change 16777215 with (N.ones 24). rewrite N.land_ones. f_equal.
    match type of RS with sess_run ?x ?y = _ => pose proof (run_ok_holds svc sid 65536 y) as RO2; rewrite RS in RO2 end. exact (proj2 (ro_id _ _ _ _ _ _ RO2)). }
  rewrite HU in HX. rewrite <- app_assoc in HX. cbn [app] in HX. destruct (SN U _ _ _ HX) as [W HW].
  destruct V as [|v V]; [discriminate HW|]. cbn [app] in HW. injection HW as -> HW.
  exists (U ++ [XMgr (OMsg (FromSession sid) (words s1))]), (V ++ [XMgr (OMsg (EndOf sid (end_code s1)) m)]), Y'. rewrite HX, <- !app_assoc. cbn [app]. reflexivity.
Qed.

(** ** What ends a session *)
Lemma close_fields s : s_closed (sess_close s) = true /\ s_error (sess_close s) = s_error s.
Proof. unfold sess_close, wake_mgr, wake_tr. cbn [s_tr_waker with_closed]. destruct (s_tr_waker s); cbn [s_mgr_waker with_tr with_closed]; destruct (s_mgr_waker s); split; reflexivity. Qed.
Lemma error_fields s : s_closed s = false -> s_closed (sess_set_error s) = true /\ s_error (sess_set_error s) = true.
Proof. intros C. unfold sess_set_error. rewrite C. destruct (close_fields (with_closed s false true)) as [-> ->]. split; reflexivity. Qed.
Lemma wm_fields s : s_closed (wake_mgr s) = s_closed s /\ s_error (wake_mgr s) = s_error s.
Proof. unfold wake_mgr. destruct (s_mgr_waker s); split; reflexivity. Qed.

Lemma write_closed s w : s_closed s = true -> s_closed (snd (fst (poll_write_output s w))) = true /\ s_error (snd (fst (poll_write_output s w))) = s_error s.
Proof.
  intros C. unfold poll_write_output. destruct (s_output s); [rewrite C; split; [exact C|reflexivity]|]. destruct w; cbn [fst snd].
  - split; [exact C|reflexivity].
  - match goal with |- context [wake_mgr ?z] => destruct (wm_fields z) as [-> ->] end. split; [exact C|reflexivity].
  - unfold sess_set_error. cbn [s_closed with_wait]. rewrite C. split; [exact C|reflexivity].
Qed.

Lemma ended_closed s te code : s_closed s = false -> s_error s = false -> ended_by s te code ->
  s_closed (fst (sess_step s (sev_of te))) = true /\ (if s_error (fst (sess_step s (sev_of te))) then 3 else 0) = code.
Proof.
  intros C F E.
  destruct E as [w P L|w P L|P O|P]; cbn [sev_of sess_step].
  - unfold transport_poll. rewrite P. cbv zeta. cbn [s_closed with_tr]. rewrite C. unfold poll_read_input. cbn [s_closed with_tr s_input]. rewrite C.
    destruct (N.leb_spec BUFFER_CAPACITY (nlen (s_input s))) as [X|X]; [unfold BUFFER_CAPACITY in X; lia|]. cbv zeta.
    set (z := sess_close _). assert (Z : s_closed z = true /\ s_error z = false) by (subst z; match goal with |- context [sess_close ?y] => destruct (close_fields y) as [-> ->] end; split; [reflexivity|exact F]).
    clearbody z. assert (Z2 : forall z2, z2 = match s_input z with [] => z | _ :: _ => wake_mgr z end -> s_closed z2 = true /\ s_error z2 = false).
    { intros z2 ->. destruct (s_input z); [exact Z|]. destruct (wm_fields z) as [-> ->]. exact Z. }
    set (z2 := match s_input z with [] => z | _ :: _ => wake_mgr z end). destruct (Z2 z2 eq_refl) as [Z3 Z4]. pose proof (write_closed z2 w Z3) as [W1 W2].
    destruct (poll_write_output z2 w) as [[rw s2] o2]. cbn [fst snd] in *. cbn [orb s_closed s_error with_tr]. rewrite W1, W2, Z4. split; reflexivity.
  - unfold transport_poll. rewrite P. cbv zeta. cbn [s_closed with_tr]. rewrite C. unfold poll_read_input. cbn [s_closed with_tr s_input]. rewrite C.
    destruct (N.leb_spec BUFFER_CAPACITY (nlen (s_input s))) as [X|X]; [unfold BUFFER_CAPACITY in X; lia|]. cbv zeta.
    set (z := sess_set_error _). assert (Z : s_closed z = true /\ s_error z = true) by (subst z; apply error_fields; exact C).
    clearbody z. assert (Z2 : forall z2, z2 = match s_input z with [] => z | _ :: _ => wake_mgr z end -> s_closed z2 = true /\ s_error z2 = true).
    { intros z2 ->. destruct (s_input z); [exact Z|]. destruct (wm_fields z) as [-> ->]. exact Z. }
    set (z2 := match s_input z with [] => z | _ :: _ => wake_mgr z end). destruct (Z2 z2 eq_refl) as [Z3 Z4]. pose proof (write_closed z2 w Z3) as [W1 W2].
    destruct (poll_write_output z2 w) as [[rw s2] o2]. cbn [fst snd] in *. cbn [orb s_closed s_error with_tr]. rewrite W1, W2, Z4. split; reflexivity.
  - unfold transport_poll. rewrite P. cbv zeta. cbn [s_closed with_tr]. rewrite C.
    assert (RI : let s1 := snd (fst (poll_read_input (with_tr s (s_tr_waker s) false) RdPending)) in s_closed s1 = false /\ s_output s1 = s_output s).
    { unfold poll_read_input. cbn [s_closed with_tr s_input]. rewrite C. destruct (_ <=? _); split; auto. }
    destruct (poll_read_input _ RdPending) as [[rr s1] o1]. cbn [fst snd] in RI. destruct RI as [R1 R2]. unfold poll_write_output. rewrite R2.
    destruct (s_output s) as [|x l]; [now destruct O|]. destruct (error_fields (with_wait s1 (s_wait_rd s1) false) R1) as [A B]. cbn [fst].
    rewrite orb_true_r. cbn [s_closed s_error with_tr]. rewrite A, B. split; reflexivity.
  - rewrite P. cbn [fst]. destruct (error_fields s C) as [A B]. cbn [s_closed s_error with_phase]. rewrite A, B. split; reflexivity.
Qed.

Lemma words_bound s : (last_words s <= 2)%nat.
Proof. unfold last_words. destruct (0 <? s_written s), (s_input s); try lia; destruct (0 <? s_incap s); lia. Qed.

Lemma end_told t i v1 v2 es1 k1 h1 es2 k2 h2 sid s1 te code :
  connection t i v1 v2 es1 = (k1, h1) -> conn_run k1 (KTransport sid te :: es2) = (k2, h2) -> k_result k2 = None -> Forall no_input es2 ->
  session k1 sid = Some s1 -> s_closed s1 = false -> s_error s1 = false -> ended_by s1 te code ->
  (length (c_messages (k_ctx k1)) + length (g_queue (c_mgr (k_ctx k1))) + 3 * length (g_order (c_mgr (k_ctx k1))) + 2 * wakeups es2 < client_polls es2)%nat ->
  exists m, In (XSent m) h2 /\ hang_up sid code m.
Proof.
  intros H1 H2 R2 NI S1 C1 F1 EB L. cbn [conn_run] in H2. destruct (conn_step k1 (KTransport sid te)) as [k1' o1] eqn:E1. destruct (conn_run k1' es2) as [k' o2] eqn:E2.
  injection H2 as -> <-.
  assert (R1 : k_result k1 = None).
  { destruct (k_result k1) eqn:X; [|reflexivity]. exfalso. pose proof (result_stays (KTransport sid te :: es2) k1) as Y. cbn [conn_run] in Y. rewrite X, E1, E2 in Y. apply Y; [discriminate|exact R2]. }
  assert (HH : connection t i v1 v2 (es1 ++ [KTransport sid te]) = (k1', h1 ++ o1)).
  { apply (connection_more _ _ _ _ _ _ _ _ _ _ H1). cbn [conn_run]. rewrite E1. now rewrite app_nil_r. }
  destruct (ended_closed s1 te code C1 F1 EB) as [A B]. unfold conn_step in E1. rewrite R1 in E1. unfold session in S1. cbn [mgr_step] in E1. rewrite S1 in E1.
  destruct (sess_step s1 (sev_of te)) as [s' oo] eqn:Es. cbn [fst] in *. cbn [lift_mgr] in E1. injection E1 as <- <-.
  match type of E2 with conn_run ?k _ = _ => set (kk := k) in * end.
  assert (S' : session kk sid = Some s') by (unfold session, kk, find_sess; cbn [k_ctx c_mgr Client.set_mgr]; gsimp; apply insert_same).
  assert (IN : In sid (g_order (c_mgr (k_ctx k1)))).
  { destruct (connection_manager _ _ _ _ _ _ _ H1 R1) as [m1 M1]. pose proof (mgr_run_inv 65536 (id_gateway i) 0 m1) as I. rewrite M1 in I. destruct I as [_ I _ _].
    apply I. unfold is_live. rewrite S1. reflexivity. }
  destruct (told_sent _ _ _ _ _ _ _ _ _ _ sid s' HH E2 R2 NI S' A) as (m & M1 & M2 & _).
  { unfold before_end, kk. cbn [k_ctx c_messages c_mgr Client.set_mgr]. gsimp. pose proof (position_lt _ _ IN). pose proof (words_bound s') as WB.
    pose proof (Nat.mul_le_mono_r _ _ (length (g_order (c_mgr (k_ctx k1)))) WB). lia. }
  rewrite B in M2. exists m. split; [apply in_or_app; now right|exact M2].
Qed.

(** A session that is open has no error. *)
Definition open_fine (s : sess) : Prop := s_closed s = false -> s_error s = false.
Lemma of_closed s : s_closed s = true -> open_fine s.
Proof. intros H X. congruence. Qed.
Lemma of_wm s : open_fine s -> open_fine (wake_mgr s).
Proof. unfold wake_mgr. destruct (s_mgr_waker s); auto. Qed.
Lemma of_wt s : open_fine s -> open_fine (wake_tr s).
Proof. unfold wake_tr. destruct (s_tr_waker s); auto. Qed.
Lemma of_close s : open_fine (sess_close s).
Proof. apply of_closed. apply close_fields. Qed.
Lemma of_error s : open_fine (sess_set_error s).
Proof. apply of_closed. apply SpinPf.error_closed. Qed.

Lemma of_step s e : open_fine s -> open_fine (fst (sess_step s e)).
Proof.
  intros H. destruct e as [n|p|f| | | |r w| |]; cbn [sess_step].
  - apply of_wm. exact H.
  - unfold sess_push. destruct (s_closed s) eqn:C; [exact H|]. destruct (_ <? _); [apply of_error|]. cbv zeta. cbn [fst]. destruct (s_output _); [exact H|]. apply of_wt. exact H.
  - unfold sess_take. destruct (0 <? s_written s); [exact H|]. cbv zeta. set (s2 := with_input _ _).
    set (s3 := if nlen (s_input s2) <? BUFFER_CAPACITY then wake_tr s2 else s2). assert (W3 : open_fine s3) by (subst s3; destruct (_ <? _); [apply of_wt|]; exact H).
    clearbody s3. destruct (firstn _ _); [|exact W3]. destruct (s_closed s3) eqn:C; [|exact W3]. destruct (s_error s3); [|exact W3]. intros X. cbn in X. congruence.
  - apply of_close.
  - destruct (s_phase s); exact H.
  - destruct (s_phase s); [|exact H|exact H]. exact (of_error s).
  - unfold transport_poll. destruct (s_phase s); try exact H. destruct (s_closed _); [exact H|]. cbv zeta.
    assert (A : open_fine (snd (fst (poll_read_input (with_tr s (s_tr_waker s) false) r)))).
    { unfold poll_read_input. destruct (s_closed _); [exact H|]. destruct (_ <=? _); [exact H|].
      assert (K : forall z, open_fine z -> open_fine (match s_input z with [] => z | _ => wake_mgr z end)) by (intros z Z; destruct (s_input z); [exact Z|now apply of_wm]).
      destruct r as [|[|b0 b]|]; cbn [fst snd]; [exact H| | |]; apply K; [apply of_close|exact H|apply of_error]. }
    destruct (poll_read_input _ r) as [[rr s1] o1]. cbn [fst snd] in A.
    assert (B : open_fine (snd (fst (poll_write_output s1 w)))).
    { unfold poll_write_output. destruct (s_output s1); [destruct (s_closed s1); exact A|]. destruct w; [exact A|apply of_wm; exact A|apply of_error]. }
    destruct (poll_write_output s1 w) as [[rw s2] o2]. cbn [fst snd] in *. destruct (rr || rw); exact B.
  - destruct (s_wait_rd s); exact H.
  - destruct (s_wait_wr s); exact H.
Qed.
Lemma of_run es : forall s s' o, open_fine s -> sess_run s es = (s', o) -> open_fine s'.
Proof.
  induction es as [|e es IH]; intros s s' o W H; cbn [sess_run] in H; [injection H as <- _; exact W|].
  pose proof (of_step s e W) as W1. destruct (sess_step s e) as [s1 o1]. destruct (sess_run s1 es) as [s2 o2] eqn:R. injection H as <- _. exact (IH _ _ _ W1 R).
Qed.

Lemma ending_told t i v1 v2 es1 k1 h1 es2 k2 h2 sid s1 te code :
  connection t i v1 v2 es1 = (k1, h1) -> conn_run k1 (KTransport sid te :: es2) = (k2, h2) -> k_result k2 = None -> Forall no_input es2 ->
  session k1 sid = Some s1 -> s_closed s1 = false -> ended_by s1 te code ->
  (length (c_messages (k_ctx k1)) + length (g_queue (c_mgr (k_ctx k1))) + 3 * length (g_order (c_mgr (k_ctx k1))) + 2 * wakeups es2 < client_polls es2)%nat ->
  exists m, In (XSent m) h2 /\ hang_up sid code m.
Proof.
  intros H1 H2 R2 NI S1 C1. apply (end_told t i v1 v2 es1 k1 h1 es2 k2 h2 sid s1 te code H1 H2 R2 NI S1 C1).
  assert (R1 : k_result k1 = None).
  { destruct (k_result k1) eqn:X; [|reflexivity]. exfalso. pose proof (result_stays (KTransport sid te :: es2) k1) as Y. rewrite X, H2 in Y. apply Y; [discriminate|exact R2]. }
  destruct (connection_manager _ _ _ _ _ _ _ H1 R1) as [m1 E1]. pose proof (mgr_run_inv 65536 (id_gateway i) 0 m1) as I. rewrite E1 in I. destruct I as [HI _ _ _].
  destruct (ho_sess _ _ _ HI sid s1 S1) as [svc RS]. refine (of_run _ _ _ _ _ RS C1). intros _. reflexivity.
Qed.
