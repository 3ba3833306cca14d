(** Proofs about the main task. *)
From Coq Require Import NArith ZArith List Bool Lia ZifyBool ZifyNat ZifyN.
From Verif.Model Require Import Bytes Frame Service Control Session Manager Client MainTask.
From Verif.Spec Require Import ClientSpec MainSpec.
From Verif.Proofs Require Import ClientInv ClientRun ClientPropsPf.
Import ListNotations.
Local Open Scope Z_scope.

(** ** Reading *)
Lemma read_app h1 : forall r h2,
  read_all r (h1 ++ h2) =
  (fst (read_all (fst (read_all r h1)) h2), snd (read_all r h1) ++ snd (read_all (fst (read_all r h1)) h2)).
Proof.
  induction h1 as [|x h1 IH]; intros r h2; cbn [app read_all fst snd].
  - now destruct (read_all r h2).
  - destruct (read_step r x) as [r1 g1]. rewrite IH. destruct (read_all r1 h1) as [r2 g2]. cbn [fst snd]. now rewrite app_assoc.
Qed.
Lemma now_app h o : now_at (h ++ o) = fst (read_all (now_at h) o).
Proof. unfold now_at. now rewrite read_app. Qed.
Lemma gaps_app h o : gaps (h ++ o) = gaps h ++ snd (read_all (now_at h) o).
Proof. unfold gaps, now_at. now rewrite read_app. Qed.
Lemma reported_app h o : reported (h ++ o) = fold_left (fun s x => match x with TState s' => s' | _ => s end) o (reported h).
Proof. unfold reported. now rewrite fold_left_app. Qed.
Lemma cur_app h o :
  current_conn (h ++ o) = fold_left (fun c x => match x with TAttempt _ _ => [] | TConn o => c ++ [o] | _ => c end) o (current_conn h).
Proof. unfold current_conn. now rewrite fold_left_app. Qed.
Lemma exits_app h o : exits (h ++ o) = exits h ++ exits o.
Proof. apply flat_map_app. Qed.

Lemma read_conn r o : read_all r (map TConn o) = (r, []).
Proof. induction o as [|x o IH]; [reflexivity|]. cbn [map read_all read_step]. now rewrite IH. Qed.
Lemma reported_conn h o : reported (h ++ map TConn o) = reported h.
Proof. rewrite reported_app. generalize (reported h). induction o as [|x o IH]; intros s; [reflexivity|apply IH]. Qed.
Lemma cur_conn h o : current_conn (h ++ map TConn o) = current_conn h ++ o.
Proof.
  rewrite cur_app. generalize (current_conn h). induction o as [|x o IH]; intros c; cbn [map fold_left]; [now rewrite app_nil_r|].
  rewrite IH. now rewrite <- app_assoc.
Qed.
Lemma exits_conn o : exits (map TConn o) = [].
Proof. induction o as [|x o IH]; [reflexivity|exact IH]. Qed.

Lemma cstate_eqb_spec a b : cstate_eqb a b = true <-> a = b.
Proof. destruct a, b; cbn; split; congruence. Qed.

(** ** Setting the state *)
Definition quiet (x : mtobs) : Prop := match x with TState _ => True | _ => False end.
Lemma set_state_spec m s m' o :
  set_state m s = (m', o) ->
  mt_default m' = mt_default m /\ mt_current m' = mt_current m /\ mt_last m' = mt_last m /\ mt_pairing m' = mt_pairing m /\
  mt_diag m' = mt_diag m /\ mt_state m' = s /\ mt_phase m' = mt_phase m /\ o = (if cstate_eqb s (mt_state m) then [] else [TState s]).
Proof.
  unfold set_state. destruct (cstate_eqb s (mt_state m)) eqn:E; intros [= <- <-]; repeat split.
  symmetry. now apply cstate_eqb_spec.
Qed.
Lemma state_obs s s0 h : reported h = s0 -> reported (h ++ (if cstate_eqb s s0 then [] else [TState s])) = s.
Proof.
  intros H. destruct (cstate_eqb s s0) eqn:E; [|rewrite reported_app; reflexivity].
  rewrite app_nil_r. apply cstate_eqb_spec in E. congruence.
Qed.
Definition state_list (s s0 : cstate) : list mtobs := if cstate_eqb s s0 then [] else [TState s].
Lemma read_state r s s0 : read_all r (state_list s s0) = (r, []).
Proof. unfold state_list. destruct (cstate_eqb s s0); reflexivity. Qed.
Lemma cur_state h s s0 : current_conn (h ++ state_list s s0) = current_conn h.
Proof. rewrite cur_app. unfold state_list. destruct (cstate_eqb s s0); reflexivity. Qed.
Lemma exits_state s s0 : exits (state_list s s0) = [].
Proof. unfold state_list. destruct (cstate_eqb s s0); reflexivity. Qed.

Lemma start_spec m t m' o :
  start_attempt m t = (m', o) ->
  mt_default m' = mt_default m /\ mt_current m' = mt_current m /\ mt_last m' = t /\ mt_pairing m' = mt_pairing m /\
  mt_diag m' = mt_diag m /\ mt_state m' = Connected /\ mt_phase m' = PTls /\
  o = TAttempt t (mt_current m) :: state_list Connected (mt_state m).
Proof.
  unfold start_attempt. cbv zeta. destruct (set_state _ Connected) as [m2 o2] eqn:E. intros [= <- <-].
  apply set_state_spec in E. cbn in E. destruct E as (A & B & C & D & E & F & G & H). subst o2. auto 10.
Qed.

(** ** Invariant *)
Definition gap_ok (t0 : Z) (addr : bytes) (g : gap) : Prop :=
  match g_result g with
  | Redirected a => g_next_addr g = a /\ g_sleep g = None
  | Failed Unauthorized =>
      g_next_addr g = addr /\
      exists d, pairing_delay t0 (g_end g) = Some d /\ g_sleep g = Some (g_end g + d) /\ g_end g + d <= g_next g
  | Failed UnsupportedProtocolVersion => False
  | Failed _ =>
      g_next_addr g = addr /\
      match g_sleep g with
      | Some w => w = g_start g + 60 * SEC /\ w <= g_next g
      | None => g_start g + 59 * SEC + 500000000 <= g_end g
      end
  end.

(** The sleep after a failed attempt. *)
Definition sleep_ok (t0 start te : Z) (k : ekind) (u : Z) : Prop :=
  match k with
  | Unauthorized => exists d, pairing_delay t0 te = Some d /\ u = te + d
  | UnsupportedProtocolVersion => False
  | _ => u = start + 60 * SEC
  end.
Definition final_failure (t0 te : Z) (k : ekind) : Prop :=
  k = UnsupportedProtocolVersion \/ (k = Unauthorized /\ pairing_delay t0 te = None).
Definition state_after (r : cresult) : cstate :=
  match r with Redirected _ => Connected | Failed Unauthorized => NotAuthorized | Failed _ => Disconnected end.

Definition from_connection (r : cresult) (c : list cobs) : Prop :=
  (c = [] /\ exists k, r = Failed k /\ (k = OtherError \/ k = ConnectionError)) \/
  exists t i v1 v2 es k, connection t i v1 v2 es = (k, c) /\ k_result k = Some r.

Definition phase_ok (t0 : Z) (m : mtask) (h : list mtobs) : Prop :=
  match mt_phase m with
  | PTls => now_at h = {| rd_attempt := Some (mt_last m, mt_current m); rd_result := None; rd_sleep := None |} /\
            mt_state m = Connected /\ current_conn h = [] /\ exits h = []
  | POnline k => now_at h = {| rd_attempt := Some (mt_last m, mt_current m); rd_result := None; rd_sleep := None |} /\
            mt_state m = Connected /\ k_result k = None /\ exits h = [] /\
            exists t i v1 v2 es, connection t i v1 v2 es = (k, current_conn h)
  | PWait u => exists a te k, now_at h = {| rd_attempt := Some (mt_last m, a); rd_result := Some (te, Failed k); rd_sleep := Some u |} /\
            mt_state m = state_after (Failed k) /\ mt_current m = mt_default m /\ sleep_ok t0 (mt_last m) te k u /\ mt_diag m = false /\
            exits h = []
  | PSuspended => exists a te k, now_at h = {| rd_attempt := Some (mt_last m, a); rd_result := Some (te, Failed k); rd_sleep := None |} /\
            mt_state m = state_after (Failed k) /\ final_failure t0 te k /\ mt_diag m = false /\ exits h = []
  | PExited c => exists a te r, now_at h = {| rd_attempt := Some (mt_last m, a); rd_result := Some (te, r); rd_sleep := None |} /\
            mt_state m = Connected /\ c = diagnose r /\ exits h = [c] /\ mt_diag m = true /\ from_connection r (current_conn h)
  end.

Record minv (t0 : Z) (addr : bytes) (diag : bool) (m : mtask) (h : list mtobs) : Prop := {
  i_addr : mt_default m = addr;
  i_diag : mt_diag m = diag;
  i_pair : mt_pairing m = t0 + 1200 * SEC;
  i_state : mt_state m = reported h;
  i_phase : phase_ok t0 m h;
  i_gaps : Forall (gap_ok t0 addr) (gaps h);
  i_first : diag = true -> gaps h = []
}.

Lemma started t0 addr diag m h t m' o g :
  start_attempt m t = (m', o) ->
  mt_default m = addr -> mt_diag m = diag -> mt_pairing m = t0 + 1200 * SEC -> mt_state m = reported h -> exits h = [] ->
  Forall (gap_ok t0 addr) (gaps h) -> (diag = true -> gaps h = []) ->
  snd (read_step (now_at h) (TAttempt t (mt_current m))) = g -> Forall (gap_ok t0 addr) g -> (diag = true -> g = []) ->
  minv t0 addr diag m' (h ++ o).
Proof.
  intros E H1 H2 H3 H4 H5 H6 H7 Hg H8 H9. apply start_spec in E as (A & B & C & D & E & F & G & ->).
  assert (Egaps : gaps (h ++ TAttempt t (mt_current m) :: state_list Connected (mt_state m)) = gaps h ++ g).
  { rewrite gaps_app. cbn [read_all]. destruct (read_step (now_at h) (TAttempt t (mt_current m))) as [r1 g1].
    cbn [snd] in Hg. subst g1. rewrite read_state. cbn [snd]. now rewrite app_nil_r. }
  split.
  - congruence.
  - congruence.
  - congruence.
  - rewrite F. change (TAttempt t (mt_current m) :: state_list Connected (mt_state m))
      with ([TAttempt t (mt_current m)] ++ state_list Connected (mt_state m)). rewrite app_assoc. symmetry. apply state_obs.
    rewrite reported_app. now symmetry.
  - unfold phase_ok. rewrite G. split; [|split; [exact F|split]].
    + rewrite now_app. cbn [read_all read_step]. rewrite read_state. cbn [fst]. now rewrite B, C.
    + change (TAttempt t (mt_current m) :: state_list Connected (mt_state m))
        with ([TAttempt t (mt_current m)] ++ state_list Connected (mt_state m)). rewrite app_assoc, cur_state, cur_app. reflexivity.
    + rewrite exits_app, H5. cbn. apply exits_state.
  - rewrite Egaps. apply Forall_app. auto.
  - intros Hd. rewrite Egaps, H7, H9 by exact Hd. reflexivity.
Qed.

Lemma new_inv t0 t addr diag m o : mtask_new t0 t addr diag = (m, o) -> minv t0 addr diag m o.
Proof.
  unfold mtask_new. intros H. change o with ([] ++ o). eapply started; [exact H|reflexivity..| | | | |]; try reflexivity; try constructor.
Qed.

Lemma pairing_retry t0 now last :
  process_connection_error Unauthorized last (t0 + 1200 * SEC) now =
  match pairing_delay t0 now with Some d => RTimeout d | None => RSuspend end.
Proof.
  unfold process_connection_error, pairing_delay.
  replace (now + 600 * SEC <? t0 + 1200 * SEC) with (now <? t0 + 600 * SEC) by (unfold SEC; lia).
  destruct (now <? t0 + 600 * SEC); [reflexivity|]. destruct (now <? t0 + 1200 * SEC); reflexivity.
Qed.
Lemma delay_long t0 now d : pairing_delay t0 now = Some d -> 500000000 <? d = true.
Proof. unfold pairing_delay. destruct (_ <? _); [intros [= <-]; reflexivity|]. destruct (_ <? _); intros [= <-]. reflexivity. Qed.

Lemma result_inv t0 addr diag m h r now next m' o :
  process_result m r now next = (m', o) ->
  mt_default m = addr -> mt_diag m = diag -> mt_pairing m = t0 + 1200 * SEC -> mt_state m = reported h ->
  mt_state m = Connected ->
  now_at h = {| rd_attempt := Some (mt_last m, mt_current m); rd_result := None; rd_sleep := None |} ->
  Forall (gap_ok t0 addr) (gaps h) -> (diag = true -> gaps h = []) -> exits h = [] -> from_connection r (current_conn h) ->
  minv t0 addr diag m' (h ++ o).
Proof.
  intros E H1 H2 H3 H4 H5 H6 H7 H8 H9 H10. unfold process_result in E. rewrite H2 in E. destruct diag.
  - injection E as <- <-. split; try assumption.
    + rewrite reported_app. exact H4.
    + unfold phase_ok. cbn [set_phase mt_phase mt_last mt_state mt_diag]. exists (mt_current m), now, r.
      split; [rewrite now_app, H6; reflexivity|]. split; [exact H5|]. split; [reflexivity|]. rewrite exits_app, H9.
      split; [reflexivity|]. split; [exact H2|]. rewrite cur_app. exact H10.
    + rewrite gaps_app, H6. cbn. now rewrite app_nil_r.
    + intros _. rewrite gaps_app, H6. cbn. rewrite app_nil_r. auto.
  - assert (Hx : forall x, exits (h ++ [TResult now x]) = []) by (intros x; rewrite exits_app, H9; reflexivity).
    assert (Hgp : forall x, gaps (h ++ [TResult now x]) = gaps h).
    { intros x. rewrite gaps_app. cbn. now rewrite app_nil_r. }
    assert (Hrp : forall x, reported (h ++ [TResult now x]) = reported h) by (intros x; now rewrite reported_app).
    assert (Hnw : forall x, now_at (h ++ [TResult now x]) =
      {| rd_attempt := Some (mt_last m, mt_current m); rd_result := Some (now, x); rd_sleep := None |}).
    { intros x. now rewrite now_app, H6. }
    destruct r as [a|k].
    + destruct (start_attempt (set_current m a) next) as [m1 o1] eqn:Es. injection E as <- <-.
      change (TResult now (Redirected a) :: o1) with ([TResult now (Redirected a)] ++ o1). rewrite app_assoc.
      eapply started; [exact Es| | | | | | | |reflexivity| |]; cbn [set_current mt_default mt_diag mt_pairing mt_state mt_current];
        rewrite ?Hrp, ?Hgp; auto; [|discriminate].
      rewrite Hnw. cbn [read_step rd_attempt rd_result rd_sleep snd]. constructor; [|constructor]. split; reflexivity.
    + destruct (set_state m _) as [m1 o1] eqn:Es. apply set_state_spec in Es as (A & B & C & D & F & G & P & ->).
      set (s := match k with Unauthorized => NotAuthorized | _ => Disconnected end) in *.
      assert (Hs : s = state_after (Failed k)) by (destruct k; reflexivity).
      fold (state_list s (mt_state m)) in E. set (st := state_list s (mt_state m)) in *.
      set (h1 := h ++ TResult now (Failed k) :: st).
      assert (Eh1 : h1 = (h ++ [TResult now (Failed k)]) ++ st) by (unfold h1; now rewrite <- app_assoc).
      assert (Hx1 : exits h1 = []). { rewrite Eh1, exits_app, Hx. apply exits_state. }
      assert (Hg1 : gaps h1 = gaps h). { rewrite Eh1, gaps_app, Hgp. unfold st. rewrite read_state. apply app_nil_r. }
      assert (Hr1 : reported h1 = s). { rewrite Eh1. apply state_obs. now rewrite Hrp. }
      assert (Hn1 : now_at h1 = {| rd_attempt := Some (mt_last m, mt_current m); rd_result := Some (now, Failed k); rd_sleep := None |}).
      { rewrite Eh1, now_app, Hnw. unfold st. now rewrite read_state. }
      cbn [set_current mt_default mt_diag mt_pairing mt_state mt_current mt_last] in E. rewrite C, D, H3 in E.
      assert (Hwait : forall d m2 o2,
        (set_phase (set_current m1 (mt_default m1)) (PWait (now + d)), TResult now (Failed k) :: st ++ [TWait (now + d)]) = (m2, o2) ->
        sleep_ok t0 (mt_last m) now k (now + d) -> minv t0 addr false m2 (h ++ o2)).
      { intros d m2 o2 [= <- <-] Hsl. replace (h ++ _) with (h1 ++ [TWait (now + d)]) by (unfold h1; now rewrite <- app_assoc).
        split; cbn [set_phase set_current mt_default mt_diag mt_pairing mt_state mt_current mt_last].
        - congruence.
        - congruence.
        - congruence.
        - rewrite reported_app. cbn [fold_left]. congruence.
        - unfold phase_ok. cbn [set_phase set_current mt_default mt_diag mt_pairing mt_state mt_current mt_last mt_phase].
          exists (mt_current m), now, k. rewrite C. split; [rewrite now_app, Hn1; reflexivity|]. split; [congruence|].
          split; [reflexivity|]. split; [exact Hsl|]. split; [congruence|]. rewrite exits_app, Hx1. reflexivity.
        - rewrite gaps_app, Hg1. cbn. rewrite app_nil_r. exact H7.
        - discriminate. }
      assert (Hsus : forall m2 o2,
        (set_phase (set_current m1 (mt_default m1)) PSuspended, TResult now (Failed k) :: st) = (m2, o2) ->
        final_failure t0 now k -> minv t0 addr false m2 (h ++ o2)).
      { intros m2 o2 [= <- <-] Hff. fold h1.
        split; cbn [set_phase set_current mt_default mt_diag mt_pairing mt_state mt_current mt_last].
        - congruence.
        - congruence.
        - congruence.
        - congruence.
        - unfold phase_ok. cbn [set_phase set_current mt_default mt_diag mt_pairing mt_state mt_current mt_last mt_phase].
          exists (mt_current m), now, k. rewrite C. split; [exact Hn1|]. split; [congruence|]. split; [exact Hff|]. split; [congruence|exact Hx1].
        - rewrite Hg1. exact H7.
        - discriminate. }
      assert (Hnow : forall m2 o2,
        (let '(m3, o2) := start_attempt (set_current m1 (mt_default m1)) next in (m3, TResult now (Failed k) :: st ++ o2)) = (m2, o2) ->
        k <> Unauthorized -> k <> UnsupportedProtocolVersion -> mt_last m + 59 * SEC + 500000000 <= now -> minv t0 addr false m2 (h ++ o2)).
      { intros m2 o2 Es K1 K2 Hl. destruct (start_attempt _ next) as [m3 o3] eqn:Ea. injection Es as <- <-.
        replace (h ++ _) with (h1 ++ o3) by (unfold h1; now rewrite <- app_assoc).
        eapply started; [exact Ea| | | | | | | |reflexivity| |]; cbn [set_current mt_default mt_diag mt_pairing mt_state mt_current];
          rewrite ?Hg1; auto; try congruence; try discriminate.
        rewrite Hn1. cbn [read_step rd_attempt rd_result rd_sleep snd]. constructor; [|constructor].
        unfold gap_ok. cbn [g_result g_next_addr g_sleep g_start g_end]. destruct k; try congruence; split; congruence. }
      assert (Hgen : forall k', k' = k -> k <> Unauthorized -> k <> UnsupportedProtocolVersion ->
        match (if now <? mt_last m + RETRY_TIMEOUT then RTimeout (mt_last m + RETRY_TIMEOUT - now) else RTimeout 0) with
        | RTimeout d => if 500000000 <? d
            then (set_phase (set_current m1 (mt_default m1)) (PWait (now + d)), TResult now (Failed k) :: st ++ [TWait (now + d)])
            else let '(m3, o2) := start_attempt (set_current m1 (mt_default m1)) next in (m3, TResult now (Failed k) :: st ++ o2)
        | RSuspend => (set_phase (set_current m1 (mt_default m1)) PSuspended, TResult now (Failed k) :: st)
        end = (m', o) -> minv t0 addr false m' (h ++ o)).
      { intros k' -> K1 K2. destruct (Z.ltb_spec now (mt_last m + RETRY_TIMEOUT)) as [L|L].
        - destruct (Z.ltb_spec 500000000 (mt_last m + RETRY_TIMEOUT - now)) as [L2|L2].
          + intros X. apply (Hwait _ _ _ X). unfold sleep_ok. destruct k; try congruence; unfold RETRY_TIMEOUT; lia.
          + intros X. apply (Hnow _ _ X K1 K2). revert L2. unfold RETRY_TIMEOUT, SEC. lia.
        - cbn [Z.ltb Z.compare]. intros X. apply (Hnow _ _ X K1 K2). revert L. unfold RETRY_TIMEOUT, SEC. lia. }
      destruct k; try (apply (Hgen _ eq_refl); [discriminate|discriminate|exact E]).
      * apply Hsus in E; [exact E|]. left. reflexivity.
      * rewrite pairing_retry in E. destruct (pairing_delay t0 now) as [d|] eqn:Ed.
        -- rewrite (delay_long _ _ _ Ed) in E. apply Hwait in E; [exact E|]. exists d. auto.
        -- apply Hsus in E; [exact E|]. right. auto.
Qed.

Lemma step_inv t0 addr diag m h e m' o :
  minv t0 addr diag m h -> mtask_step m e = (m', o) -> minv t0 addr diag m' (h ++ o).
Proof.
  intros I. unfold mtask_step. pose proof (i_phase _ _ _ _ _ I) as P. unfold phase_ok in P.
  assert (Hsame : forall m2 o2, (m, []) = (m2, o2) -> minv t0 addr diag m2 (h ++ o2)).
  { intros m2 o2 [= <- <-]. now rewrite app_nil_r. }
  destruct I as [I1 I2 I3 I4 _ I6 I7]. destruct (mt_phase m) as [|k|u| |c] eqn:Ep.
  - destruct P as (P1 & P2 & P3 & P4). destruct e as [cn now next|t i v1 v2|e now next|t]; try apply Hsame.
    + intros E. eapply result_inv; [exact E|auto..|]. left. split; [exact P3|]. destruct cn; eauto.
    + destruct (conn_new t i v1 v2) as [k c] eqn:Ek. intros [= <- <-].
      split; cbn [set_phase mt_default mt_diag mt_pairing mt_state]; try assumption.
      * now rewrite reported_conn.
      * unfold phase_ok. cbn [set_phase mt_phase mt_last mt_current mt_state]. rewrite now_app, read_conn. split; [exact P1|].
        split; [exact P2|]. split; [unfold conn_new in Ek; destruct (ctx_new t i v1 v2); injection Ek as <- <-; reflexivity|].
        split; [rewrite exits_app, P4; apply exits_conn|].
        exists t, i, v1, v2, []. unfold connection. rewrite Ek. cbn [conn_run]. rewrite cur_conn, P3, app_nil_r. reflexivity.
      * rewrite gaps_app, read_conn. cbn [snd]. now rewrite app_nil_r.
      * intros D. rewrite gaps_app, read_conn. cbn [snd]. rewrite app_nil_r. auto.
  - destruct P as (P1 & P2 & P3 & P4 & t1 & i & v1 & v2 & es & P5).
    destruct e as [cn now next|t i' v1' v2'|e now next|t]; try apply Hsame.
    destruct (conn_step k e) as [k1 c] eqn:Ek.
    assert (Hc : connection t1 i v1 v2 (es ++ [e]) = (k1, current_conn (h ++ map TConn c))).
    { rewrite cur_conn. unfold connection in *. destruct (conn_new t1 i v1 v2) as [k0 o0].
      assert (X : forall es k0, conn_run k0 (es ++ [e]) =
        (fst (conn_step (fst (conn_run k0 es)) e), snd (conn_run k0 es) ++ snd (conn_step (fst (conn_run k0 es)) e))).
      { clear. induction es as [|x es IH]; intros k0; cbn [app conn_run fst snd].
        - destruct (conn_step k0 e). now rewrite app_nil_r.
        - destruct (conn_step k0 x) as [k1 o1]. rewrite IH. destruct (conn_run k1 es). cbn [fst snd]. now rewrite app_assoc. }
      rewrite X. destruct (conn_run k0 es) as [k2 o2]. injection P5 as -> <-. cbn [fst snd]. rewrite Ek. cbn [fst snd].
      now rewrite app_assoc. }
    destruct (k_result k1) as [r|] eqn:Er.
    + destruct (process_result m r now next) as [m1 o1] eqn:Epr. intros [= <- <-]. rewrite app_assoc.
      eapply result_inv; [exact Epr|auto..| | | | | |].
      * rewrite reported_conn. exact I4.
      * exact P2.
      * rewrite now_app, read_conn. exact P1.
      * rewrite gaps_app, read_conn. cbn [snd]. now rewrite app_nil_r.
      * intros D. rewrite gaps_app, read_conn. cbn [snd]. rewrite app_nil_r. auto.
      * rewrite exits_app, P4. apply exits_conn.
      * right. exists t1, i, v1, v2, (es ++ [e]), k1. auto.
    + intros [= <- <-]. split; cbn [set_phase mt_default mt_diag mt_pairing mt_state]; try assumption.
      * now rewrite reported_conn.
      * unfold phase_ok. cbn [set_phase mt_phase mt_last mt_current mt_state]. rewrite now_app, read_conn. split; [exact P1|].
        split; [exact P2|]. split; [exact Er|]. split; [rewrite exits_app, P4; apply exits_conn|].
        exists t1, i, v1, v2, (es ++ [e]). exact Hc.
      * rewrite gaps_app, read_conn. cbn [snd]. now rewrite app_nil_r.
      * intros D. rewrite gaps_app, read_conn. cbn [snd]. rewrite app_nil_r. auto.
  - destruct P as (a & te & k & P1 & P2 & P3 & P4 & P5 & P6).
    destruct e as [cn now next|t i' v1' v2'|e now next|t]; try apply Hsame.
    destruct (Z.leb_spec u t) as [L|L]; [|apply Hsame]. intros E.
    eapply started; [exact E|auto..|reflexivity| |congruence].
    rewrite P1. cbn [read_step rd_attempt rd_result rd_sleep snd]. constructor; [|constructor].
    unfold gap_ok. cbn [g_result g_next_addr g_sleep g_start g_end g_next]. unfold sleep_ok in P4.
    destruct k; try contradiction; try (split; [congruence|]; split; [exact P4|exact L]).
    split; [congruence|]. destruct P4 as (d & D1 & ->). exists d. auto.
  - destruct e; apply Hsame.
  - destruct e; apply Hsame.
Qed.

Lemma run_inv t0 addr diag es : forall m h m' o,
  minv t0 addr diag m h -> mtask_run m es = (m', o) -> minv t0 addr diag m' (h ++ o).
Proof.
  induction es as [|e es IH]; intros m h m' o I; cbn [mtask_run].
  - intros [= <- <-]. now rewrite app_nil_r.
  - destruct (mtask_step m e) as [m1 o1] eqn:E1. destruct (mtask_run m1 es) as [m2 o2] eqn:E2. intros [= <- <-].
    rewrite app_assoc. eapply IH; [|exact E2]. exact (step_inv _ _ _ _ _ _ _ _ I E1).
Qed.
Lemma task_inv t0 t addr diag es m h : main_task t0 t addr diag es = (m, h) -> minv t0 addr diag m h.
Proof.
  unfold main_task. destruct (mtask_new t0 t addr diag) as [m0 o0] eqn:E0. destruct (mtask_run m0 es) as [m1 o1] eqn:E1.
  intros [= <- <-]. eapply run_inv; [|exact E1]. exact (new_inv _ _ _ _ _ _ E0).
Qed.

(** ** The clock *)
Definition rtimes (r : reading) : list Z :=
  (match rd_attempt r with Some (t, _) => [t] | None => [] end) ++ (match rd_result r with Some (t, _) => [t] | None => [] end).
Lemma asc_le l : forall t x, ascending t l -> In x l -> t <= x.
Proof.
  induction l as [|a l IH]; intros t x H Hx; [destruct Hx|]. destruct H as [H1 H2]. destruct Hx as [->|Hx]; [exact H1|].
  specialize (IH a x H2 Hx). lia.
Qed.
Lemma asc_weaken l t t' : t' <= t -> ascending t l -> ascending t' l.
Proof. destruct l as [|x l]; [auto|]. intros H [A B]. split; [lia|exact B]. Qed.
Lemma gaps_times h : forall r t, ascending t (rtimes r ++ main_times h) ->
  Forall (fun g => g_start g <= g_end g <= g_next g) (snd (read_all r h)).
Proof.
  induction h as [|x h IH]; intros r t H; [constructor|]. cbn [read_all].
  destruct (read_step r x) as [r1 g1] eqn:E. destruct (read_all r1 h) as [r2 g2] eqn:E2. cbn [snd].
  specialize (IH r1). rewrite E2 in IH. cbn [snd] in IH. unfold main_times in *. cbn [flat_map] in H. fold (main_times h) in *.
  destruct x as [t1 a1|s|c|t1 r0|u|c]; cbn [read_step] in E; injection E as <- <-; unfold rtimes in *; cbn [rd_attempt rd_result rd_sleep app] in *.
  - assert (Hn : ascending t1 (main_times h)).
    { destruct (rd_attempt r) as [[t2 a2]|], (rd_result r) as [[t3 r3]|]; cbn in H; decompose [and] H; assumption. }
    apply Forall_app. split.
    + destruct (rd_attempt r) as [[t2 a2]|], (rd_result r) as [[t3 r3]|]; try constructor; [|constructor]. cbn in *. lia.
    + apply (IH t1). cbn. split; [lia|exact Hn].
  - apply (IH t). exact H.
  - apply (IH t). exact H.
  - assert (Hn : match rd_attempt r with Some (t2, _) => t2 <= t1 | None => True end /\ ascending t1 (main_times h)).
    { destruct (rd_attempt r) as [[t2 a2]|], (rd_result r) as [[t3 r3]|]; cbn in H; decompose [and] H; split; auto; lia. }
    destruct Hn as [Hn1 Hn2]. destruct (rd_attempt r) as [[t2 a2]|].
    + apply (IH t2). cbn. split; [lia|]. split; [lia|exact Hn2].
    + apply (IH t1). cbn. split; [lia|exact Hn2].
  - apply (IH t). exact H.
  - apply (IH t). exact H.
Qed.

(** ** C43 *)
Lemma retry_gap t0 t addr diag es m h g :
  main_task t0 t addr diag es = (m, h) -> In g (gaps h) ->
  match g_result g with
  | Redirected a => g_next_addr g = a /\ g_sleep g = None
  | Failed k =>
      g_next_addr g = addr /\
      (k <> Unauthorized ->
       (g_sleep g = Some (g_start g + 60 * SEC) \/ (g_sleep g = None /\ g_start g + 59 * SEC + 500000000 <= g_end g)) /\
       (ascending t0 (main_times h) -> g_start g + 59 * SEC + 500000000 <= g_next g))
  end.
Proof.
  intros H Hg. pose proof (i_gaps _ _ _ _ _ (task_inv _ _ _ _ _ _ _ H)) as G. rewrite Forall_forall in G. specialize (G g Hg).
  unfold gap_ok in G. destruct (g_result g) as [a|k]; [exact G|].
  assert (X : k <> Unauthorized -> match g_sleep g with
      | Some w => w = g_start g + 60 * SEC /\ w <= g_next g
      | None => g_start g + 59 * SEC + 500000000 <= g_end g end).
  { intros K. destruct k; try contradiction; try apply G; congruence. }
  split; [destruct k; try contradiction; apply G|]. intros K. specialize (X K). destruct (g_sleep g) as [w|].
  - destruct X as [-> X]. split; [auto|]. intros _. revert X. unfold SEC. lia.
  - split; [auto|]. intros Ha.
    pose proof (gaps_times h nothing_yet t0 Ha) as T. rewrite Forall_forall in T. specialize (T g Hg). lia.
Qed.

Lemma first_attempt t0 t addr diag es m h :
  main_task t0 t addr diag es = (m, h) -> exists rest, h = TAttempt t addr :: rest.
Proof.
  unfold main_task. destruct (mtask_new t0 t addr diag) as [m0 o0] eqn:E0. destruct (mtask_run m0 es) as [m1 o1] eqn:E1.
  intros [= <- <-]. unfold mtask_new in E0. apply start_spec in E0 as (_ & _ & _ & _ & _ & _ & _ & ->). cbn [mt_current app]. eauto.
Qed.

(** The task never waits longer than that. *)
Lemma wake_attempt t0 t addr es m h u te r :
  main_task t0 t addr false es = (m, h) -> rd_result (now_at h) = Some (te, r) -> rd_sleep (now_at h) = Some u ->
  forall t', u <= t' ->
  exists m' o, main_task t0 t addr false (es ++ [EvWake t']) = (m', h ++ TAttempt t' addr :: o).
Proof.
  intros H Hr Hu t' L. pose proof (task_inv _ _ _ _ _ _ _ H) as I. pose proof (i_phase _ _ _ _ _ I) as P. unfold phase_ok in P.
  assert (Hp : mt_phase m = PWait u /\ mt_current m = addr).
  { pose proof (i_addr _ _ _ _ _ I). destruct (mt_phase m) as [|k|u'| |c].
    - destruct P as (P & _). rewrite P in Hr. discriminate.
    - destruct P as (P & _). rewrite P in Hr. discriminate.
    - destruct P as (a & te' & k & P1 & _ & P3 & _). rewrite P1 in Hu. cbn in Hu. split; congruence.
    - destruct P as (a & te' & k & P1 & _). rewrite P1 in Hu. discriminate.
    - destruct P as (a & te' & k & P1 & _). rewrite P1 in Hu. discriminate. }
  destruct Hp as [Hp Hc]. unfold main_task in *. destruct (mtask_new t0 t addr false) as [m0 o0].
  assert (X : forall es m0, mtask_run m0 (es ++ [EvWake t']) =
    (fst (mtask_step (fst (mtask_run m0 es)) (EvWake t')), snd (mtask_run m0 es) ++ snd (mtask_step (fst (mtask_run m0 es)) (EvWake t')))).
  { clear. induction es as [|x es IH]; intros m0.
    - cbn [app mtask_run fst snd]. destruct (mtask_step m0 (EvWake t')). now rewrite app_nil_r.
    - cbn [app mtask_run]. destruct (mtask_step m0 x) as [m1 o1]. rewrite IH. destruct (mtask_run m1 es). cbn [fst snd].
      now rewrite app_assoc. }
  rewrite X. destruct (mtask_run m0 es) as [m1 o1]. injection H as -> <-. cbn [fst snd].
  unfold mtask_step. rewrite Hp. destruct (Z.leb_spec u t'); [|lia].
  destruct (start_attempt m t') as [m2 o2] eqn:Es. apply start_spec in Es as (_ & _ & _ & _ & _ & _ & _ & ->).
  rewrite Hc. cbn [fst snd]. do 2 eexists. rewrite app_assoc. reflexivity.
Qed.

(** ** C44 *)
Lemma unauthorized_gap t0 t addr diag es m h g :
  main_task t0 t addr diag es = (m, h) -> In g (gaps h) -> g_result g = Failed Unauthorized ->
  exists d, pairing_delay t0 (g_end g) = Some d /\ g_sleep g = Some (g_end g + d) /\ g_end g + d <= g_next g.
Proof.
  intros H Hg Hr. pose proof (i_gaps _ _ _ _ _ (task_inv _ _ _ _ _ _ _ H)) as G. rewrite Forall_forall in G. specialize (G g Hg).
  unfold gap_ok in G. rewrite Hr in G. apply G.
Qed.
Lemma sleeping t0 t addr es m h te k :
  main_task t0 t addr false es = (m, h) -> rd_result (now_at h) = Some (te, Failed k) ->
  rd_sleep (now_at h) =
  match k with
  | Unauthorized => match pairing_delay t0 te with Some d => Some (te + d) | None => None end
  | UnsupportedProtocolVersion => None
  | _ => match rd_attempt (now_at h) with Some (t1, _) => Some (t1 + 60 * SEC) | None => None end
  end.
Proof.
  intros H Hr. pose proof (task_inv _ _ _ _ _ _ _ H) as I. pose proof (i_phase _ _ _ _ _ I) as P. unfold phase_ok in P.
  pose proof (i_diag _ _ _ _ _ I) as D. destruct (mt_phase m) as [|k0|u'| |c].
  - destruct P as (P & _). rewrite P in Hr. discriminate.
  - destruct P as (P & _). rewrite P in Hr. discriminate.
  - destruct P as (a & te' & k' & P1 & _ & _ & P4 & _). rewrite P1 in *. cbn [rd_sleep rd_result rd_attempt] in *. injection Hr as -> ->.
    unfold sleep_ok in P4. destruct k; try contradiction; try congruence. destruct P4 as (d & -> & ->). reflexivity.
  - destruct P as (a & te' & k' & P1 & _ & P3 & _). rewrite P1 in *. cbn [rd_sleep rd_result rd_attempt] in *. injection Hr as -> ->.
    destruct P3 as [->|[-> ->]]; reflexivity.
  - destruct P as (a & te' & k' & _ & _ & _ & _ & P & _). congruence.
Qed.
Lemma suspended_forever t0 t addr es es' m h te k :
  main_task t0 t addr false es = (m, h) -> rd_result (now_at h) = Some (te, Failed k) ->
  k = UnsupportedProtocolVersion \/ (k = Unauthorized /\ t0 + 1200 * SEC <= te) ->
  snd (main_task t0 t addr false (es ++ es')) = h.
Proof.
  intros H Hr Hk. pose proof (task_inv _ _ _ _ _ _ _ H) as I. pose proof (i_phase _ _ _ _ _ I) as P. unfold phase_ok in P.
  pose proof (i_diag _ _ _ _ _ I) as D.
  assert (Hp : mt_phase m = PSuspended).
  { destruct (mt_phase m) as [|k0|u'| |c]; [| | |reflexivity|].
    - destruct P as (P & _). rewrite P in Hr. discriminate.
    - destruct P as (P & _). rewrite P in Hr. discriminate.
    - exfalso. destruct P as (a & te' & k' & P1 & _ & _ & P4 & _). rewrite P1 in *. cbn [rd_sleep rd_result rd_attempt] in *. injection Hr as -> ->.
      unfold sleep_ok in P4. destruct Hk as [->|[-> L]]; [exact P4|]. destruct P4 as (d & Hd & _). revert Hd. unfold pairing_delay.
      destruct (Z.ltb_spec te (t0 + 600 * SEC)); [unfold SEC in *; lia|]. destruct (Z.ltb_spec te (t0 + 1200 * SEC)); [lia|discriminate].
    - destruct P as (a & te' & k' & _ & _ & _ & _ & P & _). congruence. }
  assert (Hst : forall es', mtask_run m es' = (m, [])).
  { intros l. induction l as [|e l IH]; [reflexivity|]. cbn [mtask_run]. unfold mtask_step. rewrite Hp. destruct e; now rewrite IH. }
  unfold main_task in *. destruct (mtask_new t0 t addr false) as [m0 o0].
  assert (X : forall es m0, mtask_run m0 (es ++ es') =
    (fst (mtask_run (fst (mtask_run m0 es)) es'), snd (mtask_run m0 es) ++ snd (mtask_run (fst (mtask_run m0 es)) es'))).
  { clear. induction es as [|x es IH]; intros m0.
    - cbn [app mtask_run fst snd]. destruct (mtask_run m0 es'). reflexivity.
    - cbn [app mtask_run]. destruct (mtask_step m0 x) as [m1 o1]. rewrite IH. destruct (mtask_run m1 es). cbn [fst snd].
      now rewrite app_assoc. }
  rewrite X. destruct (mtask_run m0 es) as [m1 o1]. injection H as -> <-. cbn [fst snd]. rewrite Hst. cbn [snd]. now rewrite app_nil_r.
Qed.

(** ** C45 *)
Lemma reported_state t0 t addr es m h :
  main_task t0 t addr false es = (m, h) ->
  reported h = match rd_result (now_at h) with
               | None => Connected
               | Some (_, Failed Unauthorized) => NotAuthorized
               | Some (_, _) => Disconnected
               end.
Proof.
  intros H. pose proof (task_inv _ _ _ _ _ _ _ H) as I. pose proof (i_phase _ _ _ _ _ I) as P. unfold phase_ok in P.
  pose proof (i_diag _ _ _ _ _ I) as D. pose proof (i_state _ _ _ _ _ I) as S. rewrite <- S.
  destruct (mt_phase m) as [|k0|u'| |c].
  - destruct P as (-> & -> & _). reflexivity.
  - destruct P as (-> & -> & _). reflexivity.
  - destruct P as (a & te' & k' & -> & -> & _). cbn. destruct k'; reflexivity.
  - destruct P as (a & te' & k' & -> & -> & _). cbn. destruct k'; reflexivity.
  - destruct P as (a & te' & k' & _ & _ & _ & _ & P & _). congruence.
Qed.

(** ** C46 *)
Lemma unheard t0 i v1 v2 es k h r :
  connection t0 i v1 v2 es = (k, h) -> received h = [] -> k_result k = Some r -> diagnose r = 1%N.
Proof.
  intros H Hn Hr. apply connection_reached in H. unfold reached in H. rewrite Hr in H.
  destruct H as (c & h0 & o & _ & Hc & ->). rewrite received_app in Hn. apply app_eq_nil in Hn as [_ Hn].
  inversion Hc as [t e m kd c' Hd Hk|t e m c' tg Hd Ht|kd Hk|t a b d c' o' Ht]; subst; try discriminate.
  - destruct Hk as [->| ->]; reflexivity.
  - reflexivity.
Qed.

Lemma diagnostic t0 t addr es m h :
  main_task t0 t addr true es = (m, h) -> told_mode true h ->
  gaps h = [] /\
  exits h =
    match rd_result (now_at h) with
    | None => []
    | Some _ => match service_verdict (current_conn h) with
                | Some 0%N | Some 2%N => [0%N]
                | _ => [1%N]
                end
    end /\
  (received (current_conn h) <> [] -> rd_result (now_at h) <> None).
Proof.
  intros H Hm. pose proof (task_inv _ _ _ _ _ _ _ H) as I. pose proof (i_phase _ _ _ _ _ I) as P. unfold phase_ok in P.
  pose proof (i_diag _ _ _ _ _ I) as D. split; [now apply (i_first _ _ _ _ _ I)|].
  assert (Hcur : forall e m', In (XRecv e m') (current_conn h) -> e_diagnostic e = true).
  { assert (X : forall l acc, (forall x, In x acc -> In (TConn x) h) -> (forall x, In x l -> In x h) ->
      forall x, In x (fold_left (fun c x => match x with TAttempt _ _ => [] | TConn o => c ++ [o] | _ => c end) l acc) -> In (TConn x) h).
    { clear. induction l as [|y l IH]; intros acc H1 H2 x; [apply H1|]. cbn [fold_left]. apply IH.
      - intros z Hz. destruct y; try (apply H1; exact Hz); [destruct Hz|].
        apply in_app_or in Hz as [Hz|[<-|[]]]; [apply H1; exact Hz|]. apply H2. now left.
      - intros z Hz. apply H2. now right. }
    intros e m' Hin. apply (Hm e m'). apply (X h [] (fun x F => match F with end) (fun x F => F)). exact Hin. }
  assert (Hrin : forall e m' l, received (current_conn h) = (e, m') :: l -> e_diagnostic e = true).
  { intros e m' l E. apply (Hcur e m'). assert (Y : In (e, m') (received (current_conn h))) by (rewrite E; now left).
    unfold received in Y. apply in_flat_map in Y as (x & Hx & Hy). destruct x; cbn in Hy; try contradiction. destruct Hy as [Hy|[]]. injection Hy as <- <-. exact Hx. }
  assert (Hres : forall tc i v1 v2 es' k, connection tc i v1 v2 es' = (k, current_conn h) ->
    (received (current_conn h) <> [] -> k_result k <> None) /\
    (forall r, k_result k = Some r -> diagnose r = match service_verdict (current_conn h) with Some 0%N | Some 2%N => 0%N | _ => 1%N end)).
  { intros tc i v1 v2 es' k Hc. unfold service_verdict.
    destruct (received (current_conn h)) as [|[e m'] l] eqn:Er.
    - split; [congruence|]. intros r Hr. exact (unheard _ _ _ _ _ _ _ _ Hc Er Hr).
    - pose proof (verdicts _ _ _ _ _ _ _ _ _ _ Hc Er) as V. rewrite (Hrin _ _ _ eq_refl) in V.
      destruct (read_ack m') as [[id code]|].
      + destruct (N.eqb_spec id REGISTER_ID).
        * destruct (code =? 0)%N eqn:C0; destruct V as [V _]; rewrite V; (split; [discriminate|]); intros r [= <-].
          -- apply N.eqb_eq in C0. rewrite C0. reflexivity.
          -- unfold verdict. destruct (code =? 1)%N eqn:C1; [apply N.eqb_eq in C1; rewrite C1; reflexivity|].
             destruct (code =? 2)%N eqn:C2; [apply N.eqb_eq in C2; rewrite C2; reflexivity|].
             destruct (code =? 4294967295)%N; cbn [diagnose]; destruct code as [|[p|[p|p|]|]]; try discriminate; reflexivity.
        * destruct V as [V _]. rewrite V. split; [discriminate|]. intros r [= <-]. reflexivity.
      + destruct V as [V _]. rewrite V. split; [discriminate|]. intros r [= <-]. reflexivity. }
  destruct (mt_phase m) as [|k0|u'| |c].
  - destruct P as (-> & _ & -> & ->). split; [reflexivity|]. intros X. now contradict X.
  - destruct P as (-> & _ & Hk & -> & t1 & i & v1 & v2 & es' & P5). split; [reflexivity|]. destruct (Hres _ _ _ _ _ _ P5) as [X _].
    intros Y. now apply X in Y.
  - destruct P as (a & te' & k' & _ & _ & _ & _ & P & _). congruence.
  - destruct P as (a & te' & k' & _ & _ & _ & P & _). congruence.
  - destruct P as (a & te & r & -> & _ & -> & -> & _ & F). cbn [rd_result]. split; [|discriminate].
    assert (Y : diagnose r = match service_verdict (current_conn h) with Some 0%N | Some 2%N => 0%N | _ => 1%N end).
    { destruct F as [[Ec (k & -> & Hk)]|(t1 & i & v1 & v2 & es' & k & F1 & F2)].
      - rewrite Ec. destruct Hk as [->| ->]; reflexivity.
      - exact (proj2 (Hres _ _ _ _ _ _ F1) r F2). }
    rewrite Y. destruct (service_verdict (current_conn h)) as [[|[p|[p|p|]|]]|]; reflexivity.
Qed.

Lemma early_connected : exists (t0 t : Z) (addr : bytes) (es : list mtev) (m : mtask) (h : list mtobs),
  main_task t0 t addr false es = (m, h) /\ ascending t0 (main_times h) /\ reported h = Connected /\ ~ online h.
Proof.
  exists 0, 0, [97%N], []. do 2 eexists. split; [reflexivity|]. split; [cbn; lia|]. split; [reflexivity|].
  intros (_ & _ & H). discriminate.
Qed.
Lemma online_connected t0 t addr es m h : main_task t0 t addr false es = (m, h) -> online h -> reported h = Connected.
Proof. intros H (_ & Hr & _). rewrite (reported_state _ _ _ _ _ _ H), Hr. reflexivity. Qed.
