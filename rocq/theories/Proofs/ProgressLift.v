(** C139 for the sessions of a connection. *)
From Coq Require Import NArith ZArith List Bool Lia ZifyBool ZifyNat ZifyN.
From Verif.Model Require Import Bytes Frame Service Control Alist Session Manager Client.
From Verif.Spec Require Import ManagerSpec ClientSpec WireSpec SessionSpec ProgressSpec.
From Verif.Proofs Require Import AlistFacts ManagerProofs ClientInv ClientPropsPf ClientPropsPf2 SessionProofs SpinPf ProgressPf.
From Verif.Proofs Require WireFinal.
Import ListNotations.
Local Open Scope N_scope.

(** The service ID of a session does not matter to what it accepts and writes. *)
Definition other (v : N) (s : sess) : sess :=
  {| s_service := v; s_session := s_session s; s_input := s_input s; s_output := s_output s;
     s_incap := s_incap s; s_outcap := s_outcap s; s_written := s_written s; s_mgr_waker := s_mgr_waker s;
     s_tr_waker := s_tr_waker s; s_closed := s_closed s; s_error := s_error s; s_phase := s_phase s;
     s_mgr_run := s_mgr_run s; s_tr_run := s_tr_run s; s_wait_rd := s_wait_rd s; s_wait_wr := s_wait_wr s |}.

Lemma other_wm v s : wake_mgr (other v s) = other v (wake_mgr s).
Proof. unfold wake_mgr. cbn [s_mgr_waker other]. destruct (s_mgr_waker s); reflexivity. Qed.
Lemma other_wt v s : wake_tr (other v s) = other v (wake_tr s).
Proof. unfold wake_tr. cbn [s_tr_waker other]. destruct (s_tr_waker s); reflexivity. Qed.
Lemma other_close v s : sess_close (other v s) = other v (sess_close s).
Proof.
  unfold sess_close. change (with_closed (other v s) true (s_error (other v s))) with (other v (with_closed s true (s_error s))).
  now rewrite other_wt, other_wm.
Qed.
Lemma other_error v s : sess_set_error (other v s) = other v (sess_set_error s).
Proof.
  unfold sess_set_error. cbn [s_closed other]. destruct (s_closed s); [reflexivity|].
  change (with_closed (other v s) false true) with (other v (with_closed s false true)). apply other_close.
Qed.

Lemma other_read v s r : poll_read_input (other v s) r = let '(b, s', o) := poll_read_input s r in (b, other v s', o).
Proof.
  unfold poll_read_input. cbn [s_closed s_input other]. destruct (s_closed s); [reflexivity|].
  destruct (BUFFER_CAPACITY <=? nlen (s_input s)); [reflexivity|]. destruct r as [|b|]; [reflexivity| |]; cbv zeta.
  - change (with_wait (other v s) false (s_wait_wr (other v s))) with (other v (with_wait s false (s_wait_wr s))).
    destruct b as [|x b].
    + rewrite other_close. cbn [s_input other]. destruct (s_input (sess_close _)); [reflexivity|]. now rewrite other_wm.
    + change (with_input (other v (with_wait s false (s_wait_wr s))) (s_input (other v (with_wait s false (s_wait_wr s))) ++ x :: b))
        with (other v (with_input (with_wait s false (s_wait_wr s)) (s_input s ++ x :: b))).
      cbn [s_input with_wait]. set (s1 := with_input _ _). cbn [s_input other]. destruct (s_input s1); [reflexivity|]. now rewrite other_wm.
  - change (with_wait (other v s) false (s_wait_wr (other v s))) with (other v (with_wait s false (s_wait_wr s))).
    rewrite other_error. cbn [s_input other]. destruct (s_input (sess_set_error _)); [reflexivity|]. now rewrite other_wm.
Qed.

Lemma other_write v s w : poll_write_output (other v s) w = let '(b, s', o) := poll_write_output s w in (b, other v s', o).
Proof.
  unfold poll_write_output. cbn [s_closed s_output other]. destruct (s_output s) as [|x l] eqn:E; [destruct (s_closed s); reflexivity|].
  destruct w as [|n|]; [reflexivity| |]; cbv zeta.
  - cbn [s_output other with_wait]. rewrite E. set (d := firstn _ _). set (k := skipn _ _).
    change (with_caps (with_output (with_wait (other v s) (s_wait_rd (other v s)) false) k) _ _ _)
      with (other v (with_caps (with_output (with_wait s (s_wait_rd s) false) k) (s_incap s) (s_outcap s) (s_written s + nlen d))).
    rewrite other_wm. reflexivity.
  - change (with_wait (other v s) (s_wait_rd (other v s)) false) with (other v (with_wait s (s_wait_rd s) false)). now rewrite other_error.
Qed.

Lemma other_step v s e :
  fst (sess_step (other v s) e) = other v (fst (sess_step s e)) /\
  accepted (snd (sess_step (other v s) e)) = accepted (snd (sess_step s e)) /\
  written (snd (sess_step (other v s) e)) = written (snd (sess_step s e)).
Proof.
  destruct e as [n|p|f| | | |r w| |]; cbn [sess_step].
  - cbn [fst snd]. split; [|split; reflexivity]. unfold sess_data_ack. rewrite <- other_wm. reflexivity.
  - unfold sess_push. cbn [s_closed other]. destruct (s_closed s); [repeat split|]. cbn [s_outcap other].
    destruct (s_outcap s <? nlen p); [cbn [fst snd]; rewrite other_error; repeat split|]. cbv zeta. cbn [fst snd].
    split; [|split; reflexivity].
    change (with_output (with_caps (other v s) _ _ _) _)
      with (other v (with_output (with_caps s (s_incap s) (s_outcap s - nlen p) (s_written s)) (s_output s ++ p))).
    cbn [s_output other with_caps]. set (s2 := with_output _ _). destruct (s_output s2); [reflexivity|]. now rewrite other_wt.
  - unfold sess_take. cbn [s_written other]. destruct (0 <? s_written s); [repeat split|]. cbv zeta. cbn [s_incap s_input other].
    set (tk := N.min _ _).
    change (with_input (with_caps (other v s) _ _ _) _)
      with (other v (with_input (with_caps s (s_incap s - tk) (s_outcap s) (s_written s)) (skipn (N.to_nat tk) (s_input s)))).
    cbn [s_input with_caps]. set (s2 := with_input _ _). cbn [s_input other].
    replace (if nlen (s_input s2) <? BUFFER_CAPACITY then wake_tr (other v s2) else other v s2)
      with (other v (if nlen (s_input s2) <? BUFFER_CAPACITY then wake_tr s2 else s2))
      by (destruct (_ <? _); [now rewrite other_wt|reflexivity]).
    set (s3 := if _ <? _ then _ else _). destruct (firstn (N.to_nat tk) (s_input s)); [|repeat split].
    cbn [s_closed s_error other]. destruct (s_closed s3); [destruct (s_error s3)|]; repeat split.
  - cbn [fst snd]. rewrite other_close. repeat split.
  - cbn [s_phase other]. destruct (s_phase s); repeat split.
  - cbn [s_phase other]. destruct (s_phase s); [|repeat split|repeat split]. cbn [fst snd]. rewrite other_error. repeat split.
  - unfold transport_poll. cbn [s_phase other]. destruct (s_phase s); [repeat split| |repeat split].
    change (with_tr (other v s) (s_tr_waker (other v s)) false) with (other v (with_tr s (s_tr_waker s) false)).
    set (t := with_tr s (s_tr_waker s) false). cbn [s_closed other]. destruct (s_closed t); [repeat split|].
    rewrite other_read. destruct (poll_read_input t r) as [[rr s1] o1]. rewrite other_write.
    destruct (poll_write_output s1 w) as [[rw s2] o2]. destruct (rr || rw); repeat split.
  - cbn [s_wait_rd other]. destruct (s_wait_rd s); repeat split.
  - cbn [s_wait_wr other]. destruct (s_wait_wr s); repeat split.
Qed.

Lemma other_run v es : forall s,
  fst (sess_run (other v s) es) = other v (fst (sess_run s es)) /\
  accepted (snd (sess_run (other v s) es)) = accepted (snd (sess_run s es)) /\
  written (snd (sess_run (other v s) es)) = written (snd (sess_run s es)).
Proof.
  induction es as [|e es IH]; intros s; [repeat split|]. cbn [sess_run]. destruct (other_step v s e) as (A & B & C).
  destruct (sess_step s e) as [s1 o1]. destruct (sess_step (other v s) e) as [s1' o1']. cbn [fst snd] in *. subst s1'.
  destruct (IH s1) as (D & E & F). destruct (sess_run s1 es) as [s2 o2]. destruct (sess_run (other v s1) es) as [s2' o2']. cbn [fst snd] in *.
  rewrite !accepted_app, !written_app, B, C, E, F. repeat split. exact D.
Qed.

(** ** Histories *)
Definition own (sid : N) (h : list mobs) : list (sev * list sobs) :=
  flat_map (fun x => match x with OSess s e o => if N.eqb s sid then [(e, o)] else [] | _ => [] end) h.

Lemma since_own sid h' : (forall t mac a, ~ In (OOpen sid t mac a) h') -> forall acc,
  fold_left (since_step sid) h' acc = acc ++ own sid h'.
Proof.
  induction h' as [|x h' IH]; intros N acc; [now rewrite app_nil_r|]. cbn [fold_left own flat_map].
  assert (N' : forall t mac a, ~ In (OOpen sid t mac a) h') by (intros t mac a Hi; apply (N t mac a); right; exact Hi).
  fold (own sid h'). rewrite (IH N'). destruct x as [s t mac a|s e o|s|m|w m]; cbn [since_step]; try reflexivity.
  - destruct (N.eqb_spec s sid) as [->|_]; [|reflexivity]. exfalso. apply (N t mac a). left. reflexivity.
  - destruct (s =? sid); [now rewrite <- app_assoc|reflexivity].
Qed.

Lemma stays_dead sid h' : (forall t mac a, ~ In (OOpen sid t mac a) h') -> forall st, st <> Some true ->
  fold_left (life_step sid) h' st <> Some true.
Proof.
  induction h' as [|x h' IH]; intros N st Hs; [exact Hs|]. cbn [fold_left].
  apply IH; [intros t mac a Hi; apply (N t mac a); right; exact Hi|].
  destruct st as [[|]|]; [congruence| |discriminate]. destruct x as [s t mac a|s e o|s|m|w m]; cbn [life_step]; try discriminate.
  - destruct (N.eqb_spec s sid) as [->|_]; [|discriminate]. exfalso. apply (N t mac a). left. reflexivity.
  - destruct (s =? sid); discriminate.
  - destruct (s =? sid); discriminate.
  - destruct w as [|s|s c]; try discriminate; destruct (s =? sid); discriminate.
Qed.

Lemma opened_mgr sid h t mac a : not_opened sid h -> ~ In (OOpen sid t mac a) (manager_history h).
Proof.
  intros N H. unfold manager_history in H. apply in_flat_map in H as (x & X1 & X2). destruct x; try (destruct X2; fail).
  destruct X2 as [->|[]]. exact (N t mac a X1).
Qed.

Lemma was_live t i v1 v2 es k h k' h' sid :
  connection t i v1 v2 es = (k, h) -> k_result k = None ->
  (exists es', connection t i v1 v2 es' = (k', h ++ h')) -> k_result k' = None -> session k' sid <> None -> not_opened sid h' ->
  exists s, session k sid = Some s.
Proof.
  intros H R (es' & H') R' L N. destruct (connection_manager _ _ _ _ _ _ _ H R) as [m1 E1]. destruct (connection_manager _ _ _ _ _ _ _ H' R') as [m2 E2].
  pose proof (mgr_run_inv 65536 (id_gateway i) 0 m1) as I1. rewrite E1 in I1. pose proof (mgr_run_inv 65536 (id_gateway i) 0 m2) as I2. rewrite E2 in I2.
  pose proof (ho_life _ _ _ (si_hist _ _ _ I1) sid) as L1. pose proof (ho_life _ _ _ (si_hist _ _ _ I2) sid) as L2.
  rewrite mhist_app in L2. unfold life in L2. rewrite fold_left_app in L2. fold (life sid (manager_history h)) in L2. rewrite L1 in L2.
  unfold session in *. unfold is_live in *. destruct (find_sess (c_mgr (k_ctx k')) sid); [|contradiction].
  destruct (find_sess (c_mgr (k_ctx k)) sid) as [x|]; [exists x; reflexivity|]. exfalso.
  refine (stays_dead sid (manager_history h') _ (Some false) _ L2); [|discriminate]. intros ty mac a. exact (opened_mgr sid h' ty mac a N).
Qed.

Lemma result_stays es : forall k, k_result k <> None -> k_result (fst (conn_run k es)) <> None.
Proof.
  induction es as [|e es IH]; intros k R; [exact R|]. cbn [conn_run]. destruct (conn_step k e) as [k1 o1] eqn:E.
  assert (k_result k1 <> None) as R1.
  { unfold conn_step in E. destruct (k_result k) eqn:X; [|contradiction]. injection E as <- _. rewrite X. discriminate. }
  specialize (IH k1 R1). destruct (conn_run k1 es). exact IH.
Qed.

Lemma ready_cons sid e es : ready sid (e :: es) = (if is_ready sid e then 1 else 0) + ready sid es.
Proof. unfold ready, nlen. cbn [filter]. destruct (is_ready sid e); cbn [length]; lia. Qed.
Lemma own_app sid a b : own sid (a ++ b) = own sid a ++ own sid b.
Proof. unfold own. apply flat_map_app. Qed.
Lemma chances_app a b : chances (a ++ b) = chances a + chances b.
Proof. unfold chances. rewrite filter_app. apply SpinPf.nlen_app'. Qed.

Lemma connection_more t i v1 v2 es1 es2 k1 h1 k2 h2 :
  connection t i v1 v2 es1 = (k1, h1) -> conn_run k1 es2 = (k2, h2) -> connection t i v1 v2 (es1 ++ es2) = (k2, h1 ++ h2).
Proof.
  intros H1 H2. unfold connection in *. destruct (conn_new t i v1 v2) as [k0 o0]. destruct (conn_run k0 es1) as [k1' o1] eqn:E1. injection H1 as -> <-.
  assert (X : forall l1 l2 c, conn_run c (l1 ++ l2) = let '(c1, h1) := conn_run c l1 in let '(c2, h2) := conn_run c1 l2 in (c2, h1 ++ h2)).
  { induction l1 as [|e l1 IHl]; intros l2 c; [cbn [app conn_run]; destruct (conn_run c l2); reflexivity|]. cbn [app conn_run].
    destruct (conn_step c e) as [c1 oo]. rewrite IHl. destruct (conn_run c1 l1) as [c2 o2]. destruct (conn_run c2 l2). now rewrite app_assoc. }
  rewrite X, E1, H2. now rewrite app_assoc.
Qed.

Lemma ready_seen t i v1 v2 sid es2 : forall es1 k1 h1 k2 h2,
  connection t i v1 v2 es1 = (k1, h1) -> conn_run k1 es2 = (k2, h2) -> k_result k2 = None -> session k2 sid <> None -> not_opened sid h2 ->
  ready sid es2 <= chances (map fst (own sid (manager_history h2))).
Proof.
  induction es2 as [|e es2 IH]; intros es1 k1 h1 k2 h2 H1 H2 R2 L N; [unfold ready; cbn; lia|].
  pose proof (connection_more _ _ _ _ _ _ _ _ _ _ H1 H2) as HH.
  cbn [conn_run] in H2. destruct (conn_step k1 e) as [k1' o1] eqn:E1. destruct (conn_run k1' es2) as [k2' o2] eqn:E2. injection H2 as -> <-.
  assert (R1 : k_result k1 = None).
  { destruct (k_result k1) eqn:X; [|reflexivity]. exfalso. pose proof (result_stays (e :: es2) k1) as Y. rewrite X in Y. specialize (Y ltac:(discriminate)).
    cbn [conn_run] in Y. rewrite E1, E2 in Y. cbn [fst] in Y. congruence. }
  assert (R1' : k_result k1' = None).
  { destruct (k_result k1') eqn:X; [|reflexivity]. exfalso. pose proof (result_stays es2 k1') as Y. rewrite X in Y. specialize (Y ltac:(discriminate)).
    rewrite E2 in Y. cbn [fst] in Y. congruence. }
  assert (H1' : connection t i v1 v2 (es1 ++ [e]) = (k1', h1 ++ o1)).
  { refine (connection_more _ _ _ _ _ [e] _ _ _ _ H1 _). cbn [conn_run]. rewrite E1, app_nil_r. reflexivity. }
  assert (N2 : not_opened sid o2) by (intros ty mac a Hi; apply (N ty mac a); apply in_or_app; right; exact Hi).
  specialize (IH _ _ _ _ _ H1' E2 R2 L N2). rewrite ready_cons, mhist_app, own_app, map_app, chances_app.
  destruct (is_ready sid e) eqn:Ie; [|lia]. destruct e as [| | |s te]; try discriminate Ie. destruct te as [| |r w| |]; try discriminate Ie.
  destruct w as [|n|]; try discriminate Ie. cbn [is_ready] in Ie. apply andb_prop in Ie as [I1 I2]. apply N.eqb_eq in I1. subst s.
  destruct (was_live _ _ _ _ _ _ _ k2 (o1 ++ o2) sid H1 R1) as [s Hs]; [exists (es1 ++ KTransport sid (TPolled r (WrOk n)) :: es2); exact HH|exact R2|exact L|exact N|].
  unfold conn_step in E1. rewrite R1 in E1. cbn [mgr_step sev_of] in E1. unfold session in Hs. rewrite Hs in E1.
  destruct (sess_step s (ETransport r (WrOk n))) as [s' oo]. unfold lift_mgr in E1. injection E1 as _ <-.
  cbn [map manager_history flat_map app own]. rewrite N.eqb_refl. cbn [map fst app]. rewrite chances_cons. cbn [is_push_out]. rewrite I2. lia.
Qed.

Lemma to_service_since sid h : forall acc o, acc = written (concat (map snd o)) ->
  fold_left (to_service_step sid) h acc = written (concat (map snd (fold_left (since_step sid) (manager_history h) o))).
Proof.
  induction h as [|x h IH]; intros acc o E; [exact E|]. cbn [fold_left]. change (x :: h) with ([x] ++ h). rewrite mhist_app.
  rewrite fold_left_app. apply IH. destruct x as [| | |m| |]; cbn [to_service_step manager_history flat_map app fold_left]; try exact E.
  destruct m as [s t mac a|s e oo|s|m|w m]; cbn [since_step]; try exact E.
  - destruct (s =? sid); [reflexivity|exact E].
  - destruct (s =? sid); [|exact E]. rewrite map_app, concat_app. cbn [map snd concat]. rewrite app_nil_r, written_app, E. reflexivity.
Qed.

Lemma delivered_connection t i v1 v2 es1 es2 k1 h1 k2 h2 sid s1 s2 :
  connection t i v1 v2 es1 = (k1, h1) -> conn_run k1 es2 = (k2, h2) -> k_result k2 = None ->
  session k1 sid = Some s1 -> s_phase s1 = TRunning -> session k2 sid = Some s2 -> s_closed s2 = false -> not_opened sid h2 ->
  nlen (s_output s1) <= ready sid es2 ->
  exists rest, to_service sid (h1 ++ h2) = data_in sid h1 ++ rest.
Proof.
  intros H1 H2 R2 S1 P S2 C N L. pose proof (connection_more _ _ _ _ _ _ _ _ _ _ H1 H2) as HH.
  assert (R1 : k_result k1 = None).
  { destruct (k_result k1) eqn:X; [|reflexivity]. exfalso. pose proof (result_stays es2 k1) as Y. rewrite X in Y. specialize (Y ltac:(discriminate)).
    rewrite H2 in Y. cbn [fst] in Y. congruence. }
  assert (LV : session k2 sid <> None) by (rewrite S2; discriminate).
  pose proof (ready_seen t i v1 v2 sid es2 es1 k1 h1 k2 h2 H1 H2 R2 LV N) as RS.
  destruct (connection_manager _ _ _ _ _ _ _ H1 R1) as [m1 E1]. destruct (connection_manager _ _ _ _ _ _ _ HH R2) as [m2 E2].
  pose proof (mgr_run_inv 65536 (id_gateway i) 0 m1) as I1. rewrite E1 in I1. pose proof (mgr_run_inv 65536 (id_gateway i) 0 m2) as I2. rewrite E2 in I2.
  destruct (ho_sess _ _ _ (si_hist _ _ _ I1) sid s1 S1) as [sv1 Q1]. destruct (ho_sess _ _ _ (si_hist _ _ _ I2) sid s2 S2) as [sv2 Q2].
  assert (SI : since_open sid (manager_history (h1 ++ h2)) = since_open sid (manager_history h1) ++ own sid (manager_history h2)).
  { unfold since_open. rewrite mhist_app, fold_left_app. apply since_own. intros ty mac a. exact (opened_mgr sid h2 ty mac a N). }
  rewrite SI in Q2. set (A := since_open sid (manager_history h1)) in *. set (B := own sid (manager_history h2)) in *.
  rewrite map_app, sess_run_app in Q2.
  destruct (sess_run (sess_new sv2 sid 65536) (map fst A)) as [s1' o1'] eqn:F1. destruct (sess_run s1' (map fst B)) as [s2' o2'] eqn:F2.
  injection Q2 as -> Q2.
  destruct (other_run sv2 (map fst A) (sess_new sv1 sid 65536)) as (X1 & X2 & X3).
  change (other sv2 (sess_new sv1 sid 65536)) with (sess_new sv2 sid 65536) in X1, X2, X3. rewrite F1, Q1 in X1, X2, X3. cbn [fst snd] in X1, X2, X3.
  assert (D : exists rest, written (o1' ++ o2') = accepted o1' ++ rest).
  { refine (ProgressPf.delivered sv2 sid 65536 (map fst A) s1' o1' (map fst B) s2 o2' F1 _ F2 C _); [rewrite X1; exact P|].
    rewrite X1. cbn [s_output other]. lia. }
  destruct D as [rest D]. rewrite Q2 in D. exists rest.
  unfold to_service. rewrite (to_service_since sid (h1 ++ h2) [] [] eq_refl). fold (since_open sid (manager_history (h1 ++ h2))). rewrite SI. fold A B. rewrite D, X2.
  f_equal. pose proof (run_ok_holds sv1 sid 65536 (map fst A)) as Y. rewrite Q1 in Y. destruct Y as [Y _ _ _ _ _ _ _]. rewrite Y.
  assert (C1 : s_closed s1 = false).
  { destruct (s_closed s1) eqn:Z; [|reflexivity]. exfalso. pose proof (runs_closed (map fst B) s1') as W. rewrite X1 in W. cbn [s_closed other] in W. specialize (W Z).
    rewrite <- X1, F2 in W. cbn [fst] in W. congruence. }
  rewrite (proj2 (WireFinal.delivered t i v1 v2 es1 k1 h1 sid H1) s1 R1 S1 C1). f_equal.
  unfold to_service. rewrite (to_service_since sid h1 [] [] eq_refl). reflexivity.
Qed.
