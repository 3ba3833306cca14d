(** What the log says about the main task. *)
From Coq Require Import String ZArith NArith List Bool Lia ZifyBool ZifyNat ZifyN.
From Verif.Model Require Import Bytes Text Alist Frame Service Control Session Manager Client MainTask Logger Journal.
From Verif.Spec Require Import ControlSpec TextSpec NumeralSpec JournalSpec.
From Verif.Proofs Require Import DecFacts NumeralPf JournalPf.
Import ListNotations.
Local Open Scope N_scope.

Definition CONN : bytes := lit "connecting to remote Arrow Service "%string.
Definition RETRY : bytes := lit "retrying in "%string.
Definition REJ : bytes := lit "connection rejected by the remote service "%string.
Definition PAIRED : bytes := lit "; is the client paired?"%string.

Lemma begins_own p s : begins p (p ++ s) = true.
Proof. induction p as [|a p IH]; [reflexivity|]. cbn [begins app]. now rewrite N.eqb_refl. Qed.
Lemma told_app p a b : told p (a ++ b) = told p a ++ told p b.
Proof. unfold told. now rewrite filter_app, map_app. Qed.
Lemma told_one p r : told p [r] = if is_info (j_sev r) && begins p (j_text r) then [j_text r] else [].
Proof. unfold told. cbn [filter]. now destruct (_ && _). Qed.
Lemma told_cons p r l : told p (r :: l) = told p [r] ++ told p l.
Proof. exact (told_app p [r] l). Qed.

Lemma attempt_text a : told CONN [attempt_rec a] = [CONN ++ a] /\ told RETRY [attempt_rec a] = [] /\ told REJ [attempt_rec a] = [].
Proof.
  repeat split. rewrite told_one. unfold attempt_rec, say. cbn [j_sev j_text is_info List.concat andb]. fold CONN. rewrite app_nil_r, begins_own. reflexivity.
Qed.
Lemma refused_text a : told REJ [refused_rec a] = [REJ ++ a ++ PAIRED] /\ told RETRY [refused_rec a] = [] /\ told CONN [refused_rec a] = [].
Proof.
  repeat split.
Qed.
Lemma retry_text d : exists x, told RETRY [retry_rec d] = [x] /\ x = j_text (retry_rec d) /\ told CONN [retry_rec d] = [] /\ told REJ [retry_rec d] = [].
Proof.
  eexists. split; [|split; [reflexivity|split; reflexivity]]. rewrite told_one. unfold retry_rec, say. cbn [j_sev j_text is_info List.concat andb]. fold RETRY. rewrite begins_own. reflexivity.
Qed.
Lemma failed_text p e : told p [failed_rec e] = [].
Proof. reflexivity. Qed.
Lemma suspend_text k : told CONN (suspend_recs k) = [] /\ told RETRY (suspend_recs k) = [] /\ told REJ (suspend_recs k) = [].
Proof. destruct k; repeat split. Qed.

Lemma retry_announced d t : (500000000 < d)%Z -> announced (t, t + d)%Z (j_text (retry_rec d)).
Proof.
  intros D. set (s := (d / SEC)%Z). set (ms := (d mod SEC / 1000000)%Z).
  assert (S0 : (0 <= s)%Z) by (apply Z.div_pos; unfold SEC; lia).
  pose proof (Z.mod_pos_bound d SEC ltac:(unfold SEC; lia)) as B. pose proof (Z.div_mod d SEC ltac:(unfold SEC; lia)) as E. fold s in E.
  assert (M : (0 <= ms < 1000)%Z). { assert (B' : (d mod SEC < 1000 * 1000000)%Z) by (change (1000 * 1000000)%Z with SEC; lia). split; [apply Z.div_pos; lia|apply Z.div_lt_upper_bound; lia]. }
  pose proof (Z.mul_div_le (d mod SEC) 1000000 ltac:(lia)) as L1. pose proof (Z.mul_succ_div_gt (d mod SEC) 1000000 ltac:(lia)) as L2. fold ms in L1, L2.
  exists (print_dec (Z.to_N s)), (fill 48 3 (print_dec (Z.to_N ms))), (Z.to_N s), (Z.to_N ms).
  split; [|split; [|split; [|split]]].
  - unfold retry_rec, say. cbn [j_text List.concat]. rewrite app_nil_r. reflexivity.
  - destruct (decimal (Z.to_N s)) as [A1 A2]. split; [exact A1|]. split.
    + apply numeral_iff in A1 as [A1 _]; [|lia]. destruct (print_dec (Z.to_N s)); [congruence|cbn [length]; lia].
    + intros r X. rewrite (A2 r X). cbn [length]. lia.
  - destruct (decimal (Z.to_N ms)) as [A1 A2]. apply fill_filled; auto; lia.
  - lia.
  - cbn [fst snd]. change SEC with 1000000000%Z in *. lia.
Qed.

(** ** Observations *)
Fixpoint last_result (n : Z) (h : list mtobs) : Z :=
  match h with [] => n | TResult t _ :: h' => last_result t h' | _ :: h' => last_result n h' end.
Fixpoint last_attempt (cur : bytes) (h : list mtobs) : bytes :=
  match h with [] => cur | TAttempt _ a :: h' => last_attempt a h' | _ :: h' => last_attempt cur h' end.
Lemma sleeps_app a : forall n b, sleeps n (a ++ b) = sleeps n a ++ sleeps (last_result n a) b.
Proof. induction a as [|o a IH]; intros n b; [reflexivity|]. destruct o; cbn [app sleeps last_result]; rewrite ?IH; reflexivity. Qed.
Lemma refusers_app a : forall c b, refusers c (a ++ b) = refusers c a ++ refusers (last_attempt c a) b.
Proof. induction a as [|o a IH]; intros c b; [reflexivity|]. destruct o as [| | |t r| |]; cbn [app refusers last_attempt]; rewrite ?IH; try reflexivity. destruct r as [|[]]; rewrite ?IH; reflexivity. Qed.
Lemma last_attempt_app a : forall c b, last_attempt c (a ++ b) = last_attempt (last_attempt c a) b.
Proof. induction a as [|o a IH]; intros c b; [reflexivity|]. destruct o; cbn [app last_attempt]; apply IH. Qed.
Lemma tried_app a b : tried (a ++ b) = tried a ++ tried b.
Proof. unfold tried. now rewrite map_app, concat_app. Qed.
Lemma failures_app a b : failures (a ++ b) = failures a ++ failures b.
Proof. unfold failures. now rewrite map_app, concat_app. Qed.
Lemma conn_obs o : tried (map TConn o) = [] /\ failures (map TConn o) = [] /\ (forall n, sleeps n (map TConn o) = []) /\ (forall c, refusers c (map TConn o) = []) /\ (forall c, last_attempt c (map TConn o) = c).
Proof. induction o as [|x o (A & B & C & D & E)]; [repeat split|]. repeat split; assumption. Qed.

(** What a part of a history says *)
Definition faithful (c : bytes) (o : list mtobs) (l : list jrec) : Prop :=
  told CONN l = map (app CONN) (tried o) /\
  (forall n, Forall2 announced (sleeps n o) (told RETRY l)) /\
  told REJ l = map (fun a => REJ ++ a ++ PAIRED) (refusers c o) /\
  length (filter is_warn l) = length (failures o).
Lemma faithful_nil c : faithful c [] [].
Proof. repeat split. constructor. Qed.
Lemma faithful_app c o1 l1 o2 l2 : faithful c o1 l1 -> faithful (last_attempt c o1) o2 l2 -> faithful c (o1 ++ o2) (l1 ++ l2).
Proof.
  intros (A1 & B1 & C1 & D1) (A2 & B2 & C2 & D2). unfold faithful. rewrite !told_app, tried_app, failures_app, refusers_app, filter_app, !app_length, !map_app. split; [now rewrite A1, A2|]. split; [|split; [now rewrite C1, C2|now rewrite D1, D2]].
  intros n. rewrite sleeps_app. apply Forall2_app; auto.
Qed.
Lemma faithful_conn c x : faithful c (map TConn x) [].
Proof. destruct (conn_obs x) as (A & B & C & D & E). unfold faithful. rewrite A, B, D. repeat split. intros n. rewrite C. constructor. Qed.

Lemma set_state_faithful c m s : faithful c (snd (set_state m s)) [] /\ last_attempt c (snd (set_state m s)) = c.
Proof. unfold set_state. destruct (cstate_eqb _ _); cbn [snd]; (split; [|reflexivity]); [apply faithful_nil|]. repeat split. constructor. Qed.
Lemma set_state_obs m s : snd (set_state m s) = [] \/ snd (set_state m s) = [TState s].
Proof. unfold set_state. destruct (cstate_eqb _ _); auto. Qed.
Lemma set_state_keeps m s : mt_default (fst (set_state m s)) = mt_default m /\ mt_current (fst (set_state m s)) = mt_current m /\ mt_phase (fst (set_state m s)) = mt_phase m /\
  mt_last (fst (set_state m s)) = mt_last m /\ mt_pairing (fst (set_state m s)) = mt_pairing m /\ mt_diag (fst (set_state m s)) = mt_diag m.
Proof. unfold set_state. destruct (cstate_eqb _ _); repeat split. Qed.
Lemma start_faithful c m t : faithful c (snd (start_attempt m t)) [attempt_rec (mt_current m)] /\ last_attempt c (snd (start_attempt m t)) = mt_current m /\
  mt_current (fst (start_attempt m t)) = mt_current m /\ mt_phase (fst (start_attempt m t)) = PTls.
Proof.
  unfold start_attempt. destruct (set_state_faithful (mt_current m) (set_phase (set_last m t) PTls) Connected) as [F L].
  destruct (set_state_keeps (set_phase (set_last m t) PTls) Connected) as (_ & K & P & _).
  destruct (set_state (set_phase (set_last m t) PTls) Connected) as [m2 o]. cbn [fst snd] in *. split; [|split; [exact L|split; assumption]].
  change (TAttempt t (mt_current m) :: o) with ([TAttempt t (mt_current m)] ++ o). change [attempt_rec (mt_current m)] with ([attempt_rec (mt_current m)] ++ []).
  apply faithful_app; [|exact F]. destruct (attempt_text (mt_current m)) as (A & B & C). unfold faithful. rewrite A, B, C. repeat split. constructor.
Qed.

(** The address of the attempt that is going on *)
Definition at_addr (c : bytes) (m : mtask) : Prop := match mt_phase m with PTls | POnline _ => mt_current m = c | _ => True end.

Lemma result_faithful c m r now next err : mt_diag m = false -> mt_current m = c ->
  faithful c (snd (process_result m r now next)) (result_log m r now err) /\
  at_addr (last_attempt c (snd (process_result m r now next))) (fst (process_result m r now next)).
Proof.
  intros D C. unfold process_result, result_log. rewrite D. destruct r as [addr|k].
  - destruct (start_faithful c (set_current m addr) next) as (F & L & K & P). destruct (start_attempt (set_current m addr) next) as [m1 o]. cbn [fst snd] in *. split.
    + change (TResult now (Redirected addr) :: o) with ([TResult now (Redirected addr)] ++ o). change [attempt_rec addr] with ([] ++ [attempt_rec addr]).
      apply faithful_app; [|exact F]. repeat split. constructor.
    + unfold at_addr. rewrite P. cbn [last_attempt]. rewrite L, K. reflexivity.
  - set (s := match k with Unauthorized => NotAuthorized | _ => Disconnected end).
    pose proof (set_state_obs m s) as Q. destruct (set_state_faithful c m s) as [F L]. destruct (set_state_keeps m s) as (K1 & K2 & K3 & K4 & K5 & K6).
    destruct (set_state m s) as [m1 o1]. cbn [fst snd] in *.
    assert (H : faithful c [TResult now (Failed k)] [match k with Unauthorized => refused_rec (mt_current m) | _ => failed_rec err end]).
    { destruct k; try (repeat split; constructor). rewrite C. destruct (refused_text c) as (A1 & A2 & A3). unfold faithful. rewrite A1, A2, A3. repeat split. constructor. }
    cbn [mt_last mt_pairing set_current]. rewrite K4, K5.
    destruct (process_connection_error k (mt_last m) (mt_pairing m) now) as [d|].
    + destruct (500000000 <? d)%Z eqn:E.
      * cbn [fst snd]. split; [|unfold at_addr; exact Logic.I].
        destruct H as (H1 & H2 & H3 & H4). destruct (retry_text d) as (x & A1 & A2 & A3 & A4). unfold faithful. rewrite !(told_cons _ _ [retry_rec d]), A1, A3, A4, H1, H3.
        assert (X : forall n, Forall2 announced (sleeps n [TResult now (Failed k); TWait (now + d)%Z]) (told RETRY [match k with Unauthorized => refused_rec (mt_current m) | _ => failed_rec err end] ++ [x])).
        { intros n. specialize (H2 n). inversion H2 as [Z0 Z1|]. cbn [app sleeps]. constructor; [|constructor]. rewrite A2. apply retry_announced. lia. }
        destruct Q as [-> | ->]; cbn [app]; (split; [|split; [exact X|split]]); destruct k; cbn in *; reflexivity.
      * destruct (start_faithful c (set_current m1 (mt_default m1)) next) as (G & L2 & K & P). destruct (start_attempt (set_current m1 (mt_default m1)) next) as [m3 o2]. cbn [fst snd set_current mt_current] in *. rewrite K1 in *. split.
        -- change (TResult now (Failed k) :: o1 ++ o2) with ([TResult now (Failed k)] ++ (o1 ++ o2)). change (?a :: [attempt_rec ?b]) with ([a] ++ ([] ++ [attempt_rec b])).
           apply faithful_app; [exact H|]. cbn [last_attempt]. apply faithful_app; [exact F|]. rewrite L. exact G.
        -- unfold at_addr. rewrite P. cbn [last_attempt]. rewrite last_attempt_app, L, L2, K. reflexivity.
    + cbn [fst snd]. split; [|unfold at_addr; exact Logic.I].
      change (TResult now (Failed k) :: o1) with ([TResult now (Failed k)] ++ o1). change (?a :: suspend_recs k) with ([a] ++ suspend_recs k).
      apply faithful_app; [exact H|]. cbn [last_attempt]. destruct Q as [-> | ->]; (destruct (suspend_text k) as (A1 & A2 & A3); unfold faithful; rewrite A1, A2, A3; split; [reflexivity|split; [intros ?; constructor|split; [reflexivity|destruct k; reflexivity]]]).
Qed.

Lemma start_diag m t : mt_diag (fst (start_attempt m t)) = mt_diag m.
Proof. unfold start_attempt. pose proof (set_state_keeps (set_phase (set_last m t) PTls) Connected) as (_ & _ & _ & _ & _ & K). destruct (set_state _ _) as [m2 o]. exact K. Qed.
Lemma result_diag m r now next : mt_diag (fst (process_result m r now next)) = mt_diag m.
Proof.
  unfold process_result. destruct (mt_diag m) eqn:D; [exact D|]. destruct r as [a|k].
  - pose proof (start_diag (set_current m a) next) as S. destruct (start_attempt _ _) as [m1 o]. cbn [fst] in *. rewrite S. exact D.
  - pose proof (set_state_keeps m match k with Unauthorized => NotAuthorized | _ => Disconnected end) as (_ & _ & _ & _ & _ & K). destruct (set_state m _) as [m1 o1]. cbn [fst] in K.
    destruct (process_connection_error _ _ _ _) as [d|]; [|cbn; congruence]. destruct (500000000 <? d)%Z; [cbn; congruence|].
    pose proof (start_diag (set_current m1 (mt_default m1)) next) as S. destruct (start_attempt _ _) as [m3 o2]. cbn [fst] in *. rewrite S. cbn. congruence.
Qed.
Lemma step_diag m e : mt_diag (fst (mtask_step m e)) = mt_diag m.
Proof.
  unfold mtask_step. destruct (mt_phase m) as [|k|u| |c0], e as [cn now next|t i v1 v2|e now next|t]; try reflexivity.
  - apply result_diag.
  - destruct (conn_step k e) as [k1 o]. destruct (k_result k1) as [r|]; [|reflexivity]. pose proof (result_diag m r now next) as S. destruct (process_result m r now next). exact S.
  - destruct (u <=? t)%Z; [apply start_diag|reflexivity].
Qed.
Lemma step_faithful c m e err : mt_diag m = false -> at_addr c m ->
  faithful c (snd (mtask_step m e)) (mtask_log m e err) /\ at_addr (last_attempt c (snd (mtask_step m e))) (fst (mtask_step m e)).
Proof.
  intros D A. unfold mtask_step, mtask_log. unfold at_addr in A. destruct (mt_phase m) as [|k|u| |c0] eqn:P, e as [cn now next|t i v1 v2|e now next|t];
    try (split; [apply faithful_nil|unfold at_addr; cbn [fst snd last_attempt]; rewrite P; first [exact A|exact Logic.I]]).
  - now apply result_faithful.
  - destruct (conn_new t i v1 v2) as [k o]. cbn [fst snd]. split; [apply faithful_conn|]. destruct (conn_obs o) as (_ & _ & _ & _ & E). rewrite E. exact A.
  - destruct (conn_step k e) as [k1 o]. cbn [fst]. destruct (conn_obs o) as (_ & _ & _ & _ & E). destruct (k_result k1) as [r|].
    + destruct (result_faithful c m r now next err D A) as [F G]. destruct (process_result m r now next) as [m1 o1]. cbn [fst snd] in *. rewrite last_attempt_app, E. split; [|exact G].
      change (result_log m r now err) with ([] ++ result_log m r now err). apply faithful_app; [apply faithful_conn|rewrite E; exact F].
    + cbn [fst snd]. rewrite E. split; [apply faithful_conn|exact A].
  - destruct (u <=? t)%Z.
    + destruct (start_faithful c m t) as (F & L & K & P2). split; [exact F|]. unfold at_addr. rewrite P2, L. exact K.
    + cbn [fst snd last_attempt]. split; [apply faithful_nil|]. unfold at_addr. rewrite P. exact Logic.I.
Qed.
Lemma run_faithful es : forall c m, mt_diag m = false -> at_addr c m -> faithful c (snd (mtask_run m (map fst es))) (mtask_journal m es).
Proof.
  induction es as [|[e err] es IH]; intros c m D A; [apply faithful_nil|]. cbn [map fst mtask_run mtask_journal].
  pose proof (step_diag m e) as D1. destruct (step_faithful c m e err D A) as [F G]. destruct (mtask_step m e) as [m1 o1]. cbn [fst snd] in *.
  specialize (IH (last_attempt c o1) m1 (eq_trans D1 D) G). destruct (mtask_run m1 (map fst es)) as [m2 o2]. cbn [snd] in *. now apply faithful_app.
Qed.
Lemma main_faithful t0 t addr es m h : main_task t0 t addr false (map fst es) = (m, h) -> faithful addr h (main_journal t0 t addr false es).
Proof.
  unfold main_task, main_journal, mtask_new.
  set (m0 := {| mt_default := addr; mt_current := addr; mt_last := t0; mt_pairing := (t0 + PAIRING_MODE_TIMEOUT)%Z; mt_diag := false; mt_state := Disconnected; mt_phase := PTls |}).
  destruct (start_faithful addr m0 t) as (F & L & K & P). pose proof (start_diag m0 t) as D. change (mt_current m0) with addr in *. change (mt_diag m0) with false in D.
  destruct (start_attempt m0 t) as [m1 o]. cbn [fst snd] in *. pose proof (run_faithful es addr m1 D) as R. destruct (mtask_run m1 (map fst es)) as [m2 o2]. intros [= <- <-].
  change (attempt_rec addr :: mtask_journal m1 es) with ([attempt_rec addr] ++ mtask_journal m1 es). apply faithful_app; [exact F|]. rewrite L. apply R. unfold at_addr. rewrite P. exact K.
Qed.

(** ** Suspending *)
Lemma attempt_not a : attempt_rec a <> SUSP.
Proof. unfold attempt_rec, say, SUSP. cbn [List.concat]. discriminate. Qed.
Lemma refused_not a : refused_rec a <> SUSP.
Proof. unfold refused_rec, say, SUSP. cbn [List.concat]. discriminate. Qed.
Lemma retry_not a : retry_rec a <> SUSP.
Proof. unfold retry_rec, say, SUSP. cbn [List.concat]. discriminate. Qed.
Lemma failed_not a : failed_rec a <> SUSP.
Proof. discriminate. Qed.

Lemma start_phase m t : mt_phase (fst (start_attempt m t)) = PTls.
Proof. apply (start_faithful [] m t). Qed.
Lemma result_suspends m r now next err : mt_phase m <> PSuspended ->
  (mt_phase (fst (process_result m r now next)) <> PSuspended /\ ~ In SUSP (result_log m r now err)) \/
  (mt_phase (fst (process_result m r now next)) = PSuspended /\ ends_suspended (snd (process_result m r now next)) (result_log m r now err)).
Proof.
  intros NS. unfold process_result, result_log. destruct (mt_diag m); [left; split; [discriminate|intros []]|]. destruct r as [a|k].
  - left. pose proof (start_phase (set_current m a) next) as S. destruct (start_attempt _ _) as [m1 o]. cbn [fst] in *. rewrite S. split; [discriminate|]. intros [X|[]]. now apply attempt_not in X.
  - pose proof (set_state_obs m match k with Unauthorized => NotAuthorized | _ => Disconnected end) as Q.
    pose proof (set_state_keeps m match k with Unauthorized => NotAuthorized | _ => Disconnected end) as (_ & _ & _ & K4 & K5 & _). destruct (set_state m _) as [m1 o1]. cbn [fst snd] in K4, K5, Q.
    cbn [mt_last mt_pairing set_current]. rewrite K4, K5.
    assert (H : match k with Unauthorized => refused_rec (mt_current m) | _ => failed_rec err end <> SUSP) by (destruct k; first [apply refused_not|apply failed_not]).
    destruct (process_connection_error k (mt_last m) (mt_pairing m) now) as [d|] eqn:E.
    + destruct (500000000 <? d)%Z.
      * left. split; [discriminate|]. intros [X|[X|[]]]; [auto|now apply retry_not in X].
      * left. pose proof (start_phase (set_current m1 (mt_default m1)) next) as S. destruct (start_attempt _ _) as [m3 o2]. cbn [fst] in *. rewrite S. split; [discriminate|].
        intros [X|[X|[]]]; [auto|now apply attempt_not in X].
    + right. split; [reflexivity|]. cbn [snd].
      assert (KK : k = UnsupportedProtocolVersion \/ k = Unauthorized).
      { unfold process_connection_error in E. destruct k; auto; exfalso; revert E; destruct (_ <? _)%Z; discriminate. }
      exists [], now, k, o1, [match k with Unauthorized => refused_rec (mt_current m) | _ => failed_rec err end], (say INFO [why_text k]).
      split; [reflexivity|]. split; [destruct Q as [-> | ->]; reflexivity|]. split; [|split; [intros [X|[]]; auto|split; [reflexivity|split; [exact KK|cbn; apply app_nil_r]]]].
      destruct KK as [-> | ->]; reflexivity.
Qed.

Lemma susp_app h j h' j' : ~ In SUSP j -> ends_suspended h' j' -> ends_suspended (h ++ h') (j ++ j').
Proof.
  intros N (h1 & te & k & h2 & j1 & r & -> & T & -> & N1 & R). exists (h ++ h1), te, k, h2, (j ++ j1), r. rewrite !app_assoc. split; [reflexivity|]. split; [exact T|]. split; [reflexivity|].
  split; [|exact R]. rewrite in_app_iff. tauto.
Qed.
Lemma step_suspends m e err : mt_phase m <> PSuspended ->
  (mt_phase (fst (mtask_step m e)) <> PSuspended /\ ~ In SUSP (mtask_log m e err)) \/
  (mt_phase (fst (mtask_step m e)) = PSuspended /\ ends_suspended (snd (mtask_step m e)) (mtask_log m e err)).
Proof.
  intros NS. unfold mtask_step, mtask_log. destruct (mt_phase m) as [|k|u| |c0] eqn:P, e as [cn now next|t i v1 v2|e now next|t];
    try (left; cbn [fst]; rewrite P; split; [discriminate|intros []]).
  - apply result_suspends. congruence.
  - left. destruct (conn_new t i v1 v2) as [k o]. split; [discriminate|intros []].
  - destruct (conn_step k e) as [k1 o]. cbn [fst]. destruct (k_result k1) as [r|].
    + assert (NP : mt_phase m <> PSuspended) by congruence. destruct (result_suspends m r now next err NP) as [A|[A B]].
      * left. destruct (process_result m r now next). exact A.
      * right. destruct (process_result m r now next) as [m1 o1]. cbn [fst snd] in *. split; [exact A|]. change (result_log m r now err) with ([] ++ result_log m r now err). apply susp_app; [intros []|exact B].
    + left. split; [discriminate|intros []].
  - left. destruct (u <=? t)%Z.
    + rewrite start_phase. split; [discriminate|]. intros [X|[]]. now apply attempt_not in X.
    + cbn [fst]. rewrite P. split; [discriminate|intros []].
  - congruence.
  - congruence.
  - congruence.
  - congruence.
Qed.
Lemma step_stays m e err : mt_phase m = PSuspended -> mtask_step m e = (m, []) /\ mtask_log m e err = [].
Proof. intros P. unfold mtask_step, mtask_log. rewrite P. destruct e; auto. Qed.
Lemma run_stays es : forall m, mt_phase m = PSuspended -> mtask_run m (map fst es) = (m, []) /\ mtask_journal m es = [].
Proof.
  induction es as [|[e err] es IH]; intros m P; [auto|]. cbn [map fst mtask_run mtask_journal]. destruct (step_stays m e err P) as [-> ->]. cbn [fst]. destruct (IH m P) as [-> ->]. auto.
Qed.
Lemma run_suspends es : forall m, mt_phase m <> PSuspended ->
  (mt_phase (fst (mtask_run m (map fst es))) <> PSuspended /\ ~ In SUSP (mtask_journal m es)) \/
  (mt_phase (fst (mtask_run m (map fst es))) = PSuspended /\ ends_suspended (snd (mtask_run m (map fst es))) (mtask_journal m es)).
Proof.
  induction es as [|[e err] es IH]; intros m NS; [left; split; [exact NS|intros []]|]. cbn [map fst mtask_run mtask_journal].
  destruct (step_suspends m e err NS) as [[A B]|[A B]]; destruct (mtask_step m e) as [m1 o1]; cbn [fst snd] in *.
  - specialize (IH m1 A). destruct (mtask_run m1 (map fst es)) as [m2 o2]. cbn [fst snd] in *. destruct IH as [[C D]|[C D]].
    + left. split; [exact C|]. rewrite in_app_iff. tauto.
    + right. split; [exact C|]. now apply susp_app.
  - destruct (run_stays es m1 A) as [-> ->]. right. cbn [fst snd]. rewrite !app_nil_r. auto.
Qed.
Lemma main_suspends t0 t addr diag es m h : main_task t0 t addr diag (map fst es) = (m, h) ->
  (In SUSP (main_journal t0 t addr diag es) <-> mt_phase m = PSuspended) /\
  (mt_phase m = PSuspended -> ends_suspended h (main_journal t0 t addr diag es) /\
     forall es', main_task t0 t addr diag (map fst (es ++ es')) = (m, h) /\ main_journal t0 t addr diag (es ++ es') = main_journal t0 t addr diag es).
Proof.
  unfold main_task, main_journal, mtask_new.
  set (m0 := {| mt_default := addr; mt_current := addr; mt_last := t0; mt_pairing := (t0 + PAIRING_MODE_TIMEOUT)%Z; mt_diag := diag; mt_state := Disconnected; mt_phase := PTls |}).
  pose proof (start_phase m0 t) as P. destruct (start_attempt m0 t) as [m1 o]. cbn [fst] in *.
  assert (NP : mt_phase m1 <> PSuspended) by congruence. pose proof (run_suspends es m1 NP) as R.
  assert (X : forall es', mtask_run m1 (map fst (es ++ es')) = let '(m2, o2) := mtask_run m1 (map fst es) in let '(m3, o3) := mtask_run m2 (map fst es') in (m3, o2 ++ o3)).
  { intros es'. rewrite map_app. clear. revert m1. induction (map fst es) as [|e l IH]; intros m1; cbn [app mtask_run]; [destruct (mtask_run m1 (map fst es')); reflexivity|].
    destruct (mtask_step m1 e) as [m2 o2]. rewrite IH. destruct (mtask_run m2 l) as [m3 o3]. destruct (mtask_run m3 (map fst es')) as [m4 o4]. now rewrite app_assoc. }
  assert (Y : forall es', mtask_journal m1 (es ++ es') = mtask_journal m1 es ++ mtask_journal (fst (mtask_run m1 (map fst es))) es').
  { clear. revert m1. induction es as [|[e err] l IH]; intros m1 es'; [reflexivity|]. cbn [app mtask_journal map fst mtask_run]. rewrite IH, app_assoc. destruct (mtask_step m1 e) as [m2 o2]. cbn [fst].
    destruct (mtask_run m2 (map fst l)). reflexivity. }
  destruct (mtask_run m1 (map fst es)) as [m2 o2]. cbn [fst snd] in *. intros [= <- <-]. split.
  - destruct R as [[A B]|[A B]]; (split; [intros C|intros C]).
    + exfalso. destruct C as [C|C]; [now apply attempt_not in C|auto].
    + congruence.
    + exact A.
    + right. destruct B as (h1 & te & k & h2 & j1 & r & _ & _ & -> & _). apply in_app_iff. right. right. now left.
  - intros S. destruct R as [[A _]|[_ B]]; [congruence|]. split.
    + change (attempt_rec addr :: mtask_journal m1 es) with ([attempt_rec addr] ++ mtask_journal m1 es). apply susp_app; [|exact B]. intros [C|[]]. now apply attempt_not in C.
    + intros es'. destruct (run_stays es' m2 S) as [E1 E2]. rewrite X, Y, E1, E2, !app_nil_r. auto.
Qed.

(** ** Lines *)
Lemma dec_no_lf n : no_lf (print_dec n).
Proof. intros H. pose proof (dec_digits n) as D. rewrite Forall_forall in D. apply D in H. unfold is_digit in H. lia. Qed.
Lemma parts_no_lf s l : Forall no_lf l -> no_lf (j_text (say s l)).
Proof. intros F H. cbn [say j_text] in H. apply in_concat in H as (p & I & J). rewrite Forall_forall in F. exact (F p I J). Qed.
Ltac plain := let H := fresh in intros H; vm_compute in H; intuition discriminate.
Lemma attempt_line a : no_lf a -> no_lf (j_text (attempt_rec a)).
Proof. intros H. apply parts_no_lf. repeat constructor; [plain|exact H]. Qed.
Lemma refused_line a : no_lf a -> no_lf (j_text (refused_rec a)).
Proof. intros H. apply parts_no_lf. repeat constructor; [plain|exact H|plain]. Qed.
Lemma failed_line a : no_lf a -> no_lf (j_text (failed_rec a)).
Proof. intros H. apply parts_no_lf. repeat constructor. exact H. Qed.
Lemma retry_line d : no_lf (j_text (retry_rec d)).
Proof.
  apply parts_no_lf. repeat constructor; [plain|apply dec_no_lf|plain| |plain]. unfold fill. intros H. apply in_app_iff in H as [H|H]; [apply repeat_spec in H; discriminate|now apply dec_no_lf in H].
Qed.
Lemma suspend_lines k : Forall (fun r => no_lf (j_text r)) (suspend_recs k).
Proof. destruct k; repeat constructor; plain. Qed.

Definition clean (m : mtask) : Prop := no_lf (mt_default m) /\ no_lf (mt_current m).
Lemma start_clean m t : clean m -> clean (fst (start_attempt m t)).
Proof. intros [A B]. unfold start_attempt. destruct (set_state_keeps (set_phase (set_last m t) PTls) Connected) as (K1 & K2 & _). destruct (set_state _ _) as [m2 o]. cbn [fst] in *. split; [rewrite K1|rewrite K2]; assumption. Qed.
Lemma targets_app a b : targets (a ++ b) = targets a ++ targets b.
Proof. unfold targets. now rewrite map_app, concat_app. Qed.
Lemma result_lines m r now next err : clean m -> no_lf err -> Forall no_lf (targets (snd (process_result m r now next))) ->
  clean (fst (process_result m r now next)) /\ Forall (fun r => no_lf (j_text r)) (result_log m r now err).
Proof.
  intros C E. unfold process_result, result_log. destruct (mt_diag m); [intros _; split; [exact C|constructor]|]. destruct r as [a|k].
  - pose proof (start_clean (set_current m a) next) as S. destruct (start_attempt (set_current m a) next) as [m1 o]. cbn [fst snd] in *. intros T.
    assert (A : no_lf a) by (inversion T; assumption). split; [apply S; split; [apply C|exact A]|]. constructor; [now apply attempt_line|constructor].
  - destruct (set_state_keeps m match k with Unauthorized => NotAuthorized | _ => Disconnected end) as (K1 & K2 & _ & K4 & K5 & _). destruct (set_state m _) as [m1 o1]. cbn [fst snd] in K1, K2, K4, K5.
    cbn [mt_last mt_pairing set_current]. rewrite K4, K5. destruct C as [C1 C2].
    assert (C3 : clean (set_current m1 (mt_default m1))) by (split; cbn; rewrite K1; exact C1).
    assert (H : no_lf (j_text match k with Unauthorized => refused_rec (mt_current m) | _ => failed_rec err end)) by (destruct k; first [now apply refused_line|now apply failed_line]).
    intros _. destruct (process_connection_error k (mt_last m) (mt_pairing m) now) as [d|].
    + destruct (500000000 <? d)%Z.
      * split; [exact C3|]. constructor; [exact H|]. constructor; [apply retry_line|constructor].
      * pose proof (start_clean (set_current m1 (mt_default m1)) next C3) as S. destruct (start_attempt (set_current m1 (mt_default m1)) next) as [m3 o2]. split; [exact S|].
        constructor; [exact H|]. constructor; [now apply attempt_line|constructor].
    + split; [exact C3|]. constructor; [exact H|apply suspend_lines].
Qed.
Lemma step_lines m e err : clean m -> no_lf err -> Forall no_lf (targets (snd (mtask_step m e))) ->
  clean (fst (mtask_step m e)) /\ Forall (fun r => no_lf (j_text r)) (mtask_log m e err).
Proof.
  intros C E. unfold mtask_step, mtask_log. destruct (mt_phase m) as [|k|u| |c0] eqn:P, e as [cn now next|t i v1 v2|e now next|t];
    try (intros _; split; [exact C|constructor]).
  - now apply result_lines.
  - destruct (conn_step k e) as [k1 o]. cbn [fst]. destruct (k_result k1) as [r|]; [|intros _; split; [exact C|constructor]].
    pose proof (result_lines m r now next err C E) as R. destruct (process_result m r now next) as [m1 o1]. cbn [fst snd] in *. rewrite targets_app. intros T. apply Forall_app in T as [_ T]. now apply R.
  - intros _. destruct (u <=? t)%Z; [|split; [exact C|constructor]]. split; [now apply start_clean|]. constructor; [apply attempt_line, C|constructor].
Qed.
Lemma run_lines es : forall m, clean m -> Forall (fun p => no_lf (snd p)) es -> Forall no_lf (targets (snd (mtask_run m (map fst es)))) ->
  Forall (fun r => no_lf (j_text r)) (mtask_journal m es).
Proof.
  induction es as [|[e err] es IH]; intros m C E T; [constructor|]. inversion E as [|? ? E1 E2]; subst. cbn [map fst mtask_run mtask_journal snd] in *.
  pose proof (step_lines m e err C E1) as S. destruct (mtask_step m e) as [m1 o1]. cbn [fst snd] in *. specialize (IH m1). destruct (mtask_run m1 (map fst es)) as [m2 o2]. cbn [snd] in *.
  rewrite targets_app in T. apply Forall_app in T as [T1 T2]. destruct (S T1) as [S1 S2]. apply Forall_app. split; [exact S2|]. now apply IH.
Qed.
Lemma main_lines t0 t addr diag es m h : main_task t0 t addr diag (map fst es) = (m, h) ->
  no_lf addr -> Forall (fun p => no_lf (snd p)) es -> Forall no_lf (targets h) -> Forall (fun r => no_lf (j_text r)) (main_journal t0 t addr diag es).
Proof.
  unfold main_task, main_journal, mtask_new.
  set (m0 := {| mt_default := addr; mt_current := addr; mt_last := t0; mt_pairing := (t0 + PAIRING_MODE_TIMEOUT)%Z; mt_diag := diag; mt_state := Disconnected; mt_phase := PTls |}).
  pose proof (start_clean m0 t) as C. destruct (start_attempt m0 t) as [m1 o]. cbn [fst] in *. pose proof (run_lines es m1) as R. destruct (mtask_run m1 (map fst es)) as [m2 o2]. intros [= <- <-] A E T.
  rewrite targets_app in T. apply Forall_app in T as [_ T]. constructor; [now apply attempt_line|]. apply R; [apply C; split; exact A|exact E|exact T].
Qed.
