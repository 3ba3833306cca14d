(** C139: data that waits in a session moves on. *)
From Coq Require Import NArith ZArith List Bool Lia ZifyBool ZifyNat ZifyN.
From Verif.Model Require Import Bytes Frame Service Control Alist Session Manager Client.
From Verif.Spec Require Import ClientSpec SessionSpec ProgressSpec.
From Verif.Proofs Require Import ClientInv ClientPropsPf ClientPropsPf2 SessionProofs SpinPf.
Import ListNotations.
Local Open Scope N_scope.

(** ** To the service *)
Lemma error_keeps s : s_output (sess_set_error s) = s_output s.
Proof. apply same_set_error. Qed.

Lemma run_phase s e : s_phase s = TRunning -> s_closed (fst (sess_step s e)) = false -> s_phase (fst (sess_step s e)) = TRunning.
Proof.
  intros P C.
  assert (WM : forall x, s_phase (wake_mgr x) = s_phase x) by (intros x; unfold wake_mgr; destruct (s_mgr_waker x); reflexivity).
  assert (WT : forall x, s_phase (wake_tr x) = s_phase x) by (intros x; unfold wake_tr; destruct (s_tr_waker x); reflexivity).
  assert (CL : forall x, s_phase (sess_close x) = s_phase x) by (intros x; unfold sess_close; rewrite WM, WT; reflexivity).
  assert (SE : forall x, s_phase (sess_set_error x) = s_phase x) by (intros x; unfold sess_set_error; destruct (s_closed x); [reflexivity|rewrite CL; reflexivity]).
  destruct e as [n|p|f| | | |r w| |]; cbn [sess_step] in *.
  - cbn [fst]. unfold sess_data_ack. rewrite WM. exact P.
  - unfold sess_push. destruct (s_closed s); [exact P|]. destruct (_ <? _); [cbn [fst]; rewrite SE; exact P|]. cbv zeta.
    destruct (s_output (with_output _ _)); cbn [fst]; [exact P|]. rewrite WT. exact P.
  - unfold sess_take. destruct (0 <? s_written s); [exact P|]. cbv zeta.
    set (s3 := if _ <? _ then _ else _). assert (P3 : s_phase s3 = TRunning) by (unfold s3; destruct (_ <? _); [rewrite WT|]; exact P).
    destruct (firstn _ _); [|exact P3]. destruct (s_closed s3); [destruct (s_error s3)|]; exact P3.
  - cbn [fst]. rewrite CL. exact P.
  - rewrite P. exact P.
  - rewrite P. exact P.
  - unfold transport_poll in *. rewrite P in *. cbn [s_closed with_tr] in *. destruct (s_closed s) eqn:Ec; [cbn in C; congruence|].
    destruct (poll_read_input _ r) as [[rr s1] o1] eqn:Er. destruct (poll_write_output s1 w) as [[rw s2] o2] eqn:Ew.
    assert (P1 : s_phase s1 = TRunning).
    { unfold poll_read_input in Er. destruct (s_closed _); [injection Er as _ <- _; exact P|].
      destruct (BUFFER_CAPACITY <=? _); [injection Er as _ <- _; exact P|].
      destruct r as [|b|]; injection Er as _ <- _; [exact P| |].
      - destruct b; [destruct (s_input (sess_close _)); rewrite ?WM, CL; exact P|]. destruct (s_input (with_input _ _)); rewrite ?WM; exact P.
      - destruct (s_input (sess_set_error _)); rewrite ?WM, SE; exact P. }
    assert (P2 : s_phase s2 = TRunning).
    { unfold poll_write_output in Ew. destruct (s_output s1); [destruct (s_closed s1); injection Ew as _ <- _; exact P1|].
      destruct w; injection Ew as _ <- _; [exact P1|rewrite WM; exact P1|rewrite SE; exact P1]. }
    cbn [fst]. destruct (rr || rw); exact P2.
  - destruct (s_wait_rd s); exact P.
  - destruct (s_wait_wr s); exact P.
Qed.

(** A turn in which the service takes something writes something, unless there is nothing to write. *)
Lemma chance_step s r n s' o :
  s_phase s = TRunning -> s_closed s' = false -> 0 < n -> transport_poll s r (WrOk n) = (s', o) ->
  s_output s = [] \/ 1 <= nlen (written o).
Proof.
  intros P C Hn H. unfold transport_poll in H. rewrite P in H. cbn [s_closed with_tr] in H. destruct (s_closed s) eqn:Ec.
  { injection H as <- <-. cbn in C. congruence. }
  destruct (poll_read_input _ r) as [[rr s1] o1] eqn:Er. destruct (poll_write_output s1 (WrOk n)) as [[rw s2] o2] eqn:Ew.
  injection H as <- <-.
  assert (E1 : s_output s1 = s_output s).
  { unfold poll_read_input in Er. cbn [s_closed with_tr] in Er. rewrite Ec in Er.
    destruct (BUFFER_CAPACITY <=? _); [injection Er as _ <- _; reflexivity|].
    assert (WM : forall x, s_output (wake_mgr x) = s_output x) by (intros x; unfold wake_mgr; destruct (s_mgr_waker x); reflexivity).
    destruct r as [|b|]; injection Er as _ <- _; [reflexivity| |].
    - assert (CL : forall x, s_output (sess_close x) = s_output x) by (intros x; apply same_close).
      destruct b; [destruct (s_input (sess_close _)); rewrite ?WM, CL; reflexivity|]. destruct (s_input (with_input _ _)); rewrite ?WM; reflexivity.
    - destruct (s_input (sess_set_error _)); rewrite ?WM, error_keeps; reflexivity. }
  unfold poll_write_output in Ew. rewrite E1 in Ew. destruct (s_output s) as [|x out] eqn:Eo; [left; reflexivity|right].
  injection Ew as <- <- <-. rewrite written_app, SpinPf.nlen_app'. cbn [s_output with_wait]. rewrite E1.
  unfold written at 2. cbn [map concat]. rewrite app_nil_r. unfold nlen at 2. rewrite firstn_length. unfold nlen. cbn [length]. lia.
Qed.

Lemma chances_cons e es : chances (e :: es) = (if is_push_out e then 1 else 0) + chances es.
Proof. unfold chances, nlen. cbn [filter]. destruct (is_push_out e); cbn [length]; lia. Qed.

Lemma runs_closed es : forall s, s_closed s = true -> s_closed (fst (sess_run s es)) = true.
Proof.
  induction es as [|e es IH]; intros s C; [exact C|]. cbn [sess_run]. pose proof (closed_stays s e C) as X.
  destruct (sess_step s e) as [s1 o1]. specialize (IH s1 X). destruct (sess_run s1 es). exact IH.
Qed.

Lemma flushed svc sid W es2 : forall es1 s1 o1 s2 o2,
  sess_run (sess_new svc sid W) es1 = (s1, o1) -> s_phase s1 = TRunning -> sess_run s1 es2 = (s2, o2) -> s_closed s2 = false ->
  nlen (accepted o1) <= nlen (written (o1 ++ o2)) \/ chances es2 <= nlen (written o2).
Proof.
  induction es2 as [|e es2 IH]; intros es1 s1 o1 s2 o2 H1 P H2 C.
  - right. unfold chances. cbn. lia.
  - cbn [sess_run] in H2. destruct (sess_step s1 e) as [s' oe] eqn:E1. destruct (sess_run s' es2) as [s'' o'] eqn:E2.
    injection H2 as <- <-.
    assert (C' : s_closed s' = false).
    { destruct (s_closed s') eqn:X; [|reflexivity]. pose proof (runs_closed es2 s' X) as Y. rewrite E2 in Y. cbn [fst] in Y. congruence. }
    assert (P' : s_phase s' = TRunning) by (pose proof (run_phase s1 e P) as X; rewrite E1 in X; exact (X C')).
    assert (R : sess_run (sess_new svc sid W) (es1 ++ [e]) = (s', o1 ++ oe)) by (rewrite sess_run_snoc, H1, E1; reflexivity).
    specialize (IH (es1 ++ [e]) s' (o1 ++ oe) s'' o' R P' E2 C). rewrite <- app_assoc in IH.
    rewrite accepted_app, SpinPf.nlen_app' in IH. destruct IH as [IH|IH]; [left; lia|].
    rewrite chances_cons. destruct (is_push_out e) eqn:Ie.
    + destruct e as [| | | | | |r w| |]; try discriminate Ie. destruct w as [|n|]; try discriminate Ie. cbn [is_push_out] in Ie.
      cbn [sess_step] in E1. destruct (chance_step s1 r n s' oe P C' ltac:(lia) E1) as [X|X].
      * left. pose proof (run_ok_holds svc sid W es1) as Y. rewrite H1 in Y. destruct Y as [A _ _ _ _ _ _ _].
        rewrite X, app_nil_r in A. rewrite A, written_app, SpinPf.nlen_app'. lia.
      * right. rewrite written_app, SpinPf.nlen_app'. lia.
    + right. rewrite written_app, SpinPf.nlen_app'. lia.
Qed.

Lemma app_short {A} (a b c d : list A) : a ++ b = c ++ d -> (length a <= length c)%nat -> exists r, c = a ++ r.
Proof.
  revert c. induction a as [|x a IH]; intros c H L; [exists c; reflexivity|]. destruct c as [|y c]; [cbn in L; lia|].
  injection H as -> H. destruct (IH c H ltac:(cbn in L; lia)) as [r ->]. exists r. reflexivity.
Qed.

Lemma delivered svc sid W es1 s1 o1 es2 s2 o2 :
  sess_run (sess_new svc sid W) es1 = (s1, o1) -> s_phase s1 = TRunning -> sess_run s1 es2 = (s2, o2) -> s_closed s2 = false ->
  nlen (s_output s1) <= chances es2 -> exists rest, written (o1 ++ o2) = accepted o1 ++ rest.
Proof.
  intros H1 P H2 C L.
  assert (X : nlen (accepted o1) <= nlen (written (o1 ++ o2))).
  { destruct (flushed svc sid W es2 es1 s1 o1 s2 o2 H1 P H2 C) as [X|X]; [exact X|].
    pose proof (run_ok_holds svc sid W es1) as Y. rewrite H1 in Y. destruct Y as [A _ _ _ _ _ _ _].
    rewrite A, written_app, !SpinPf.nlen_app'. lia. }
  pose proof (run_ok_holds svc sid W (es1 ++ es2)) as Y. rewrite sess_run_app, H1, H2 in Y. destruct Y as [A _ _ _ _ _ _ _].
  rewrite accepted_app in A. unfold nlen in X. exact (app_short _ _ _ _ A ltac:(lia)).
Qed.

(** ** To the server *)
Definition due (s : sess) : N := if 0 <? s_written s then 1 else 0.

Lemma takes_cons e es : takes (e :: es) = (if is_take e then 1 else 0) + takes es.
Proof. unfold takes, nlen. cbn [filter]. destruct (is_take e); cbn [length]; lia. Qed.
Lemma writes_app a b : writes (a ++ b) = writes a + writes b.
Proof. unfold writes. rewrite filter_app. apply SpinPf.nlen_app'. Qed.

Lemma take_kinds f s : let '(_, s', _, o) := sess_take f s in
  (0 < s_written s /\ s_written s' = 0) \/
  (s_written s = 0 /\ s_written s' = 0 /\ (s_input s' = [] \/ s_incap s' = 0)).
Proof.
  unfold sess_take. destruct (N.ltb_spec 0 (s_written s)) as [L|L]; [left; split; [exact L|reflexivity]|]. cbv zeta.
  set (tk := N.min (s_incap s) (nlen (s_input s))). set (s2 := with_input _ _).
  set (s3 := if N.ltb (nlen (s_input s2)) BUFFER_CAPACITY then wake_tr s2 else s2).
  assert (E3 : s_written s3 = s_written s /\ s_incap s3 = s_incap s - tk /\ s_input s3 = skipn (N.to_nat tk) (s_input s)).
  { unfold s3, wake_tr. destruct (N.ltb _ _); [|repeat split]. destruct (s_tr_waker s2); repeat split. }
  destruct E3 as (A & B & D).
  assert (G : s_input s3 = [] \/ s_incap s3 = 0).
  { rewrite B, D. destruct (N.leb_spec (s_incap s) (nlen (s_input s))); [right; unfold tk; lia|left].
    apply skipn_all2. unfold tk, nlen in *. lia. }
  destruct (firstn _ _); [destruct (s_closed s3); [destruct (s_error s3)|]|]; right; ssimp; repeat split; try lia; exact G.
Qed.

Lemma other_written s e : is_take e = false ->
  s_written (fst (sess_step s e)) = s_written s \/ 1 <= writes (snd (sess_step s e)).
Proof.
  intros T.
  assert (WM : forall x, s_written (wake_mgr x) = s_written x) by (intros x; unfold wake_mgr; destruct (s_mgr_waker x); reflexivity).
  assert (WT : forall x, s_written (wake_tr x) = s_written x) by (intros x; unfold wake_tr; destruct (s_tr_waker x); reflexivity).
  assert (CL : forall x, s_written (sess_close x) = s_written x) by (intros x; unfold sess_close; rewrite WM, WT; reflexivity).
  assert (SE : forall x, s_written (sess_set_error x) = s_written x) by (intros x; unfold sess_set_error; destruct (s_closed x); [reflexivity|rewrite CL; reflexivity]).
  destruct e as [n|p|f| | | |r w| |]; cbn [sess_step]; try discriminate T.
  - left. cbn [fst]. unfold sess_data_ack. rewrite WM. reflexivity.
  - left. unfold sess_push. destruct (s_closed s); [reflexivity|]. destruct (_ <? _); [apply SE|]. cbv zeta.
    destruct (s_output (with_output _ _)); [reflexivity|]. cbn [fst]. rewrite WT. reflexivity.
  - left. apply CL.
  - left. destruct (s_phase s); reflexivity.
  - left. destruct (s_phase s); [apply SE|reflexivity|reflexivity].
  - unfold transport_poll. destruct (s_phase s); [left; reflexivity| |left; reflexivity]. cbn [s_closed with_tr].
    destruct (s_closed s); [left; reflexivity|].
    destruct (poll_read_input _ r) as [[rr s1] o1] eqn:Er. destruct (poll_write_output s1 w) as [[rw s2] o2] eqn:Ew.
    assert (P1 : s_written s1 = s_written s).
    { unfold poll_read_input in Er. destruct (s_closed _); [injection Er as _ <- _; reflexivity|].
      destruct (BUFFER_CAPACITY <=? _); [injection Er as _ <- _; reflexivity|].
      destruct r as [|b|]; injection Er as _ <- _; [reflexivity| |].
      - destruct b; [destruct (s_input (sess_close _)); rewrite ?WM, CL; reflexivity|]. destruct (s_input (with_input _ _)); rewrite ?WM; reflexivity.
      - destruct (s_input (sess_set_error _)); rewrite ?WM, SE; reflexivity. }
    assert (P2 : s_written s2 = s_written s1 \/ 1 <= writes (o1 ++ o2)).
    { unfold poll_write_output in Ew. destruct (s_output s1); [destruct (s_closed s1); injection Ew as _ <- _; left; reflexivity|].
      destruct w; injection Ew as _ <- <-; [left; reflexivity| |left; rewrite SE; reflexivity].
      right. rewrite writes_app. unfold writes at 2, nlen. cbn [filter is_wrote length]. lia. }
    destruct P2 as [P2|P2]; [left|right; exact P2]. destruct (rr || rw); cbn [fst s_written with_tr]; congruence.
  - left. destruct (s_wait_rd s); reflexivity.
  - left. destruct (s_wait_wr s); reflexivity.
Qed.

Lemma forwarded_gen svc sid W es2 : forall es1 s1 o1 s2 o2,
  sess_run (sess_new svc sid W) es1 = (s1, o1) -> sess_run s1 es2 = (s2, o2) -> W + acked_in (es1 ++ es2) < 2 ^ 64 ->
  N.min (nlen (read_in o1)) (W + acked_in es1) <= nlen (sent (o1 ++ o2)) \/ takes es2 <= due s1 + writes o2.
Proof.
  induction es2 as [|e es2 IH]; intros es1 s1 o1 s2 o2 H1 H2 B.
  - right. unfold takes. cbn. lia.
  - cbn [sess_run] in H2. destruct (sess_step s1 e) as [s' oe] eqn:E1. destruct (sess_run s' es2) as [s'' o'] eqn:E2.
    injection H2 as <- <-.
    assert (R : sess_run (sess_new svc sid W) (es1 ++ [e]) = (s', o1 ++ oe)) by (rewrite sess_run_snoc, H1, E1; reflexivity).
    assert (B' : W + acked_in ((es1 ++ [e]) ++ es2) < 2 ^ 64) by (rewrite <- app_assoc; exact B).
    specialize (IH (es1 ++ [e]) s' (o1 ++ oe) s'' o' R E2 B'). rewrite <- app_assoc in IH.
    rewrite read_in_app, SpinPf.nlen_app', acked_in_app in IH. destruct IH as [IH|IH]; [left; lia|].
    rewrite takes_cons, writes_app. destruct (is_take e) eqn:Ie.
    + destruct e as [| |f| | | | | |]; try discriminate Ie. cbn [sess_step] in E1. pose proof (take_kinds f s1) as K.
      destruct (sess_take f s1) as [[[tk s3] f'] o3]. injection E1 as <- <-. destruct K as [[K1 K2]|(K1 & K2 & K3)].
      * right. unfold due in *. rewrite K2 in IH. change (0 <? 0) with false in IH. cbv iota in IH. destruct (N.ltb_spec 0 (s_written s1)); lia.
      * left. pose proof (run_ok_holds svc sid W (es1 ++ [ETake f])) as Y. rewrite R in Y. destruct Y as [_ A _ _ _ X _ _].
        rewrite app_assoc, sent_app, SpinPf.nlen_app'.
        rewrite acked_in_app in B. rewrite acked_in_app in X. change (acked_in [ETake f]) with 0 in *.
        assert (B2 : W + acked_in es1 < 2 ^ 64) by lia.
        rewrite N.add_0_r in X. specialize (X B2). destruct K3 as [K3|K3].
        -- rewrite K3, app_nil_r, read_in_app in A. rewrite <- A, SpinPf.nlen_app'. lia.
        -- rewrite K3 in X. lia.
    + right. pose proof (other_written s1 e Ie) as K. rewrite E1 in K. cbn [fst snd] in K. unfold due in *. destruct K as [K|K].
      * rewrite K in IH. lia.
      * destruct (0 <? s_written s'), (0 <? s_written s1); lia.
Qed.

Lemma forwarded svc sid W es1 s1 o1 es2 s2 o2 :
  sess_run (sess_new svc sid W) es1 = (s1, o1) -> sess_run s1 es2 = (s2, o2) -> W + acked_in (es1 ++ es2) < 2 ^ 64 ->
  1 + writes o2 < takes es2 -> N.min (nlen (read_in o1)) (W + acked_in es1) <= nlen (sent (o1 ++ o2)).
Proof.
  intros H1 H2 B L. destruct (forwarded_gen svc sid W es2 es1 s1 o1 s2 o2 H1 H2 B) as [X|X]; [exact X|].
  unfold due in X. destruct (0 <? s_written s1); lia.
Qed.

(** ** Acknowledgements go first *)
Definition starve_start : list sev := [EConnected; EPush [1]; ETransport (RdData [9]) (WrOk 1)].
Definition starve_round : list sev := [ETake factory_new; EPush [1]; ETransport RdPending (WrOk 1)].
Fixpoint rounds (k : nat) : list sev := match k with O => [] | S k' => starve_round ++ rounds k' end.

Definition starving (s : sess) : Prop :=
  s_session s = 1 /\ s_phase s = TRunning /\ s_closed s = false /\ s_input s = [9] /\ s_output s = [] /\ s_written s = 1 /\
  s_incap s = 65536 /\ s_outcap s = 65535.

Lemma starve_step s : starving s -> exists s' o, sess_run s starve_round = (s', o) /\ starving s' /\ sent o = [] /\ written o = [1].
Proof.
  destruct s as [sv si inp out ic oc wr mw tw cl er ph mr tr wrd wwr]. unfold starving. cbn [s_session s_phase s_closed s_input s_output s_written s_incap s_outcap].
  intros (-> & -> & -> & -> & -> & -> & -> & ->).
  destruct mw, tw; eexists; eexists; (split; [vm_compute; reflexivity|]); repeat split.
Qed.

Lemma starve_rounds k : forall s, starving s ->
  exists s' o, sess_run s (rounds k) = (s', o) /\ starving s' /\ sent o = [] /\ nlen (written o) = N.of_nat k.
Proof.
  induction k as [|k IH]; intros s S.
  - exists s, []. repeat split; apply S.
  - destruct (starve_step s S) as (s1 & o1 & E1 & S1 & A & B). destruct (IH s1 S1) as (s2 & o2 & E2 & S2 & C & D).
    cbn [rounds]. rewrite sess_run_app, E1, E2. exists s2, (o1 ++ o2). split; [reflexivity|]. split; [exact S2|].
    rewrite sent_app, A, C, written_app, B. split; [reflexivity|]. rewrite SpinPf.nlen_app', D. change (nlen [1]) with 1. lia.
Qed.

Lemma starved : forall k : nat, exists s1 o1 s2 o2,
  sess_run (sess_new 5 1 65536) starve_start = (s1, o1) /\ sess_run s1 (rounds k) = (s2, o2) /\
  read_in o1 = [9] /\ takes (rounds k) = N.of_nat k /\ s_incap s2 = 65536 /\ s_closed s2 = false /\ sent (o1 ++ o2) = [].
Proof.
  intros k. destruct (sess_run (sess_new 5 1 65536) starve_start) as [s1 o1] eqn:E1.
  assert (S : starving s1) by (vm_compute in E1; injection E1 as <- <-; repeat split).
  destruct (starve_rounds k s1 S) as (s2 & o2 & E2 & S2 & A & _). exists s1, o1, s2, o2. split; [reflexivity|]. split; [exact E2|].
  split; [vm_compute in E1; injection E1 as <- <-; reflexivity|]. split.
  { clear. induction k as [|k IH]; [reflexivity|]. cbn [rounds starve_round app]. rewrite !takes_cons, IH. cbn [is_take]. lia. }
  split; [apply S2|]. split; [apply S2|]. rewrite sent_app, A. vm_compute in E1. injection E1 as <- <-. reflexivity.
Qed.

(** The same for a whole connection. *)
Definition data7 : amsg := {| m_service := 5; m_session := 7; m_payload := [1] |}.
Definition round7 : list kev := [KPoll [SMsg 3%Z (env0 view9) data7]; KTransport 7 (TPolled RdPending (WrOk 1))].
Definition start7 : list kev :=
  session_events 0 ++ [KTransport 7 TConnected; KPoll [SMsg 3%Z (env0 view9) data7]; KTransport 7 (TPolled (RdData [9]) (WrOk 1))] ++ round7.
Fixpoint rounds7 (k : nat) : list kev := match k with O => [] | S k' => round7 ++ rounds7 k' end.

(** The connection after [start7], with the shared message factory at [f]. *)
Definition conn7 (f : factory) : conn :=
  let k := fst (connection 0%Z race_id view9 view9 start7) in
  {| k_ctx := set_mgr (k_ctx k) (set_factory (c_mgr (k_ctx k)) f); k_result := k_result k |}.

Lemma round7_runs f :
  conn_run (conn7 f) round7 =
    (conn7 ((f + 1) mod 2 ^ 64),
     [XRecv (env0 view9) data7; XMgr (OSess 7 (EPush [1]) [Accepted [1]]); XMgr (OSess 7 (ETake f) [SentAck (mk_data_ack (u16 f) 7 1)]);
      XMgr (OMsg (FromSession 7) (amsg_of_cmsg (mk_data_ack (u16 f) 7 1))); XSent (amsg_of_cmsg (mk_data_ack (u16 f) 7 1));
      XMgr (OSess 7 (ETransport RdPending (WrOk 1)) [Wrote [1]])]).
Proof. vm_compute. reflexivity. Qed.

Lemma rounds7_run k : forall f, exists f' h, conn_run (conn7 f) (rounds7 k) = (conn7 f', h) /\
  length (ClientSpec.sent h) = k /\ Forall (fun m => m_service m = 0) (ClientSpec.sent h).
Proof.
  induction k as [|k IH]; intros f.
  - exists f, []. repeat split. constructor.
  - destruct (IH ((f + 1) mod 2 ^ 64)) as (f' & h & E & A & B). cbn [rounds7].
    assert (X : forall l1 l2 c, conn_run c (l1 ++ l2) = let '(c1, h1) := conn_run c l1 in let '(c2, h2) := conn_run c1 l2 in (c2, h1 ++ h2)).
    { induction l1 as [|e l1 IHl]; intros l2 c; [cbn [app conn_run]; destruct (conn_run c l2); reflexivity|]. cbn [app conn_run].
      destruct (conn_step c e) as [c1 o1]. rewrite IHl. destruct (conn_run c1 l1) as [c2 o2]. destruct (conn_run c2 l2). now rewrite app_assoc. }
    rewrite X, round7_runs, E. eexists. eexists. split; [reflexivity|]. rewrite ClientInv.sent_app.
    change (ClientSpec.sent [XRecv (env0 view9) data7; _; _; _; XSent (amsg_of_cmsg (mk_data_ack (u16 f) 7 1)); _]) with [amsg_of_cmsg (mk_data_ack (u16 f) 7 1)].
    cbn [app length]. split; [now rewrite A|]. constructor; [reflexivity|exact B].
Qed.

Lemma starved_connection : forall k : nat, exists c h s,
  connection 0%Z race_id view9 view9 (start7 ++ rounds7 k) = (c, h) /\ k_result c = None /\
  find_sess (c_mgr (k_ctx c)) 7 = Some s /\ s_input s = [9] /\ s_incap s = 65536 /\
  length (ClientSpec.sent h) = (k + 2)%nat /\ Forall (fun m => m_service m = 0) (ClientSpec.sent h).
Proof.
  intros k. destruct (rounds7_run k 2) as (f & h & E & A & B).
  unfold connection. destruct (conn_new 0%Z race_id view9 view9) as [k0 o0] eqn:E0.
  assert (X : forall l1 l2 c, conn_run c (l1 ++ l2) = let '(c1, h1) := conn_run c l1 in let '(c2, h2) := conn_run c1 l2 in (c2, h1 ++ h2)).
  { induction l1 as [|e l1 IHl]; intros l2 c; [cbn [app conn_run]; destruct (conn_run c l2); reflexivity|]. cbn [app conn_run].
    destruct (conn_step c e) as [c1 o1]. rewrite IHl. destruct (conn_run c1 l1) as [c2 o2]. destruct (conn_run c2 l2). now rewrite app_assoc. }
  rewrite X. destruct (conn_run k0 start7) as [c1 h1] eqn:E1.
  assert (F : connection 0%Z race_id view9 view9 start7 = (c1, o0 ++ h1)) by (unfold connection; rewrite E0, E1; reflexivity).
  assert (C1 : c1 = conn7 2).
  { replace c1 with (fst (connection 0%Z race_id view9 view9 start7)) by (rewrite F; reflexivity). vm_compute. reflexivity. }
  assert (S1 : length (ClientSpec.sent (o0 ++ h1)) = 2%nat /\ Forall (fun m => m_service m = 0) (ClientSpec.sent (o0 ++ h1))).
  { replace (o0 ++ h1) with (snd (connection 0%Z race_id view9 view9 start7)) by (rewrite F; reflexivity). vm_compute. repeat constructor. }
  rewrite C1, E. destruct (find_sess (c_mgr (k_ctx (conn7 f))) 7) as [s|] eqn:Es; [|exfalso; vm_compute in Es; discriminate Es].
  exists (conn7 f), (o0 ++ h1 ++ h), s. rewrite app_assoc, ClientInv.sent_app, app_length. destruct S1 as [S1 S2].
  split; [reflexivity|]. split; [reflexivity|]. split; [exact Es|].
  split; [vm_compute in Es; injection Es as <-; reflexivity|]. split; [vm_compute in Es; injection Es as <-; reflexivity|].
  split; [rewrite S1, A; lia|]. apply Forall_app. split; assumption.
Qed.

(** A turn of the transport task reads all that the service offers, if there is room, and writes all that it takes. *)
Lemma full_turn s r w : s_phase s = TRunning -> s_closed s = false ->
  read_in (snd (sess_step s (ETransport r w))) = match r with RdData b => if nlen (s_input s) <? 8192 then b else [] | _ => [] end /\
  written (snd (sess_step s (ETransport r w))) = match w with WrOk n => firstn (N.to_nat n) (s_output s) | _ => [] end.
Proof.
  intros P C. cbn [sess_step]. unfold transport_poll. rewrite P. set (s0 := with_tr s (s_tr_waker s) false).
  change (s_closed s0) with (s_closed s). rewrite C.
  destruct (poll_read_input s0 r) as [[rr s1] o1] eqn:E1. destruct (poll_write_output s1 w) as [[rw s2] o2] eqn:E2. cbn [snd].
  rewrite read_in_app, written_app.
  assert (WM : forall y, s_output (wake_mgr y) = s_output y) by (intros y; unfold wake_mgr; destruct (s_mgr_waker y); reflexivity).
  assert (WT : forall y, s_output (wake_tr y) = s_output y) by (intros y; unfold wake_tr; destruct (s_tr_waker y); reflexivity).
  assert (CL : forall y, s_output (sess_close y) = s_output y) by (intros y; unfold sess_close; rewrite WM, WT; reflexivity).
  assert (SE : forall y, s_output (sess_set_error y) = s_output y) by (intros y; unfold sess_set_error; destruct (s_closed y); [reflexivity|rewrite CL; reflexivity]).
  assert (A : read_in o1 = match r with RdData b => if nlen (s_input s) <? 8192 then b else [] | _ => [] end /\ written o1 = [] /\ s_output s1 = s_output s).
  { unfold poll_read_input in E1. change (s_closed s0) with (s_closed s) in E1. rewrite C in E1. change (s_input s0) with (s_input s) in E1.
    change BUFFER_CAPACITY with 8192 in E1. destruct (N.leb_spec 8192 (nlen (s_input s))) as [L|L].
    - injection E1 as _ <- <-. split; [|split; reflexivity]. destruct r; try reflexivity. destruct (N.ltb_spec (nlen (s_input s)) 8192); [lia|reflexivity].
    - destruct r as [|b|]; [injection E1 as _ <- <-; repeat split| |].
      + cbv zeta in E1. match type of E1 with context [match s_input ?z with _ => _ end] => set (z0 := z) in E1 end.
        assert (Z0 : s_output z0 = s_output s) by (unfold z0; destruct b; [rewrite CL|]; reflexivity). clearbody z0. injection E1 as _ <- <-.
        split; [|split; [destruct b; reflexivity|destruct (s_input z0); [|rewrite WM]; exact Z0]].
        destruct (N.ltb_spec (nlen (s_input s)) 8192); [|lia]. destruct b; [reflexivity|]. unfold read_in. cbn [map concat]. apply app_nil_r.
      + cbv zeta in E1. match type of E1 with context [match s_input ?z with _ => _ end] => set (z0 := z) in E1 end.
        assert (Z0 : s_output z0 = s_output s) by (unfold z0; rewrite SE; reflexivity). clearbody z0. injection E1 as _ <- <-.
        split; [reflexivity|split; [reflexivity|destruct (s_input z0); [|rewrite WM]; exact Z0]]. }
  destruct A as (A1 & A2 & A3).
  assert (B : read_in o2 = [] /\ written o2 = match w with WrOk n => firstn (N.to_nat n) (s_output s) | _ => [] end).
  { rewrite <- A3. unfold poll_write_output in E2. destruct (s_output s1) as [|x l] eqn:Eo.
    - destruct (s_closed s1); injection E2 as _ _ <-; (split; [reflexivity|]); destruct w; try reflexivity; now rewrite firstn_nil.
    - destruct w as [|n|]; cbv zeta in E2; injection E2 as _ _ <-; (split; [reflexivity|]); try reflexivity.
      cbn [s_output with_wait]. rewrite Eo. unfold written. cbn [map concat]. rewrite app_nil_r.
      destruct (N.leb_spec n (nlen (x :: l))) as [L|L]; [now rewrite N.min_l by exact L|]. rewrite N.min_r by lia.
      rewrite !firstn_all2; [reflexivity|unfold nlen in L; lia|unfold nlen; lia]. }
  destruct B as [B1 B2]. rewrite A1, B1, A2, B2, app_nil_r. split; reflexivity.
Qed.
