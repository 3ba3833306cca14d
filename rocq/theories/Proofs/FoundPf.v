(** What was found is announced, and nothing else is. *)
From Coq Require Import NArith ZArith List Bool Lia.
From Verif.Model Require Import Bytes Frame Service Control Alist SvcTable Session Manager Client Config.
From Verif.Spec Require Import ControlSpec ClientSpec TableSpec ConfigSpec ReachSpec CurrentSpec.
From Verif.Proofs Require Import AlistFacts TableProofs TablePropsPf TableExpiry ReachPf CurrentPf.
Import ListNotations.
Local Open Scope N_scope.

Lemma added_assigned hash os t t' : consistent t -> built_ops os -> tbl_run hash t os = ROk t' ->
  forall now s, In (now, s) (adds os) -> exists id, assigned t' (to_ident s) id.
Proof.
  revert os t t'. apply (run_induction hash (fun t os t' => forall now s, In (now, s) (adds os) -> exists id, assigned t' (to_ident s) id)).
  - intros t _ now s [].
  - intros t o t1 os t' K Hb E Hs K1 H K' IH now s Hin. rewrite adds_cons in Hin. apply in_app_or in Hin as [Hin|Hin]; [|eauto].
    destruct (added o) as [[now' s']|] eqn:Ha; [|destruct Hin]. destruct Hin as [Eq|[]]. injection Eq as -> ->.
    destruct (step_touch _ _ _ _ _ Hs Ha) as (i & e & He & Hes & _). exists i.
    apply built_ops_cons in Hb as [_ Hb]. apply (run_assigned hash os t1 t' _ _ K1 Hb H).
    exists s. split; [|reflexivity]. unfold stored. rewrite He. cbn. now rewrite Hes.
Qed.

Lemma last_service_in k l : forall d s, last_service k l d = Some s -> d = Some s \/ to_ident s = k /\ exists now, In (now, s) l.
Proof.
  induction l as [|[now x] l IH]; cbn [last_service]; intros d s H; [auto|].
  destruct (IH _ _ H) as [Hd|(Hk & n & Hn)]; [|right; split; [exact Hk|exists n; now right]].
  destruct (ident_eq_dec k (to_ident x)) as [Q|Q]; [|auto].
  injection Hd as ->. right. split; [now symmetry|]. exists now. now left.
Qed.

Lemma last_service_some k l s : forall d, last_service k l None = Some s -> last_service k l d = Some s.
Proof.
  induction l as [|[now x] l IH]; cbn [last_service]; intros d H; [discriminate|].
  destruct (ident_eq_dec k (to_ident x)); [exact H|auto].
Qed.
Lemma last_added_some k l x : forall d, last_added k l None = Some x -> last_added k l d = Some x.
Proof.
  induction l as [|[now s] l IH]; cbn [last_added]; intros d H; [discriminate|].
  destruct (ident_eq_dec (to_ident s) k); [exact H|auto].
Qed.

Lemma world_table hash ys : forall w w', world_run hash w ys = ROk w' -> tbl_run hash (w_table w) (table_part ys) = ROk (w_table w').
Proof.
  induction ys as [|y ys IH]; intros w w' H; cbn [world_run] in H; [injection H as <-; reflexivity|].
  destruct (world_step hash w y) as [w1| |] eqn:S; try discriminate. specialize (IH _ _ H).
  rewrite part_cons. destruct y as [o|t|e]; cbn [table_part flat_map app] in *.
  - cbn [world_step] in S. destruct (tbl_step hash (w_table w) o) as [t'| |] eqn:T; try discriminate.
    injection S as <-. cbn [w_table] in IH. cbn [tbl_run]. rewrite T. exact IH.
  - cbn [world_step] in S. cbv zeta in S. destruct (conn_step _ _). injection S as <-. exact IH.
  - assert (E : w_table w1 = w_table w).
    { destruct e as [items|t a b d| |sid te]; cbn [world_step] in S; [|injection S as <-; reflexivity| |];
        (match type of S with (let '(_, _) := ?c in _) = _ => destruct c end; injection S as <-; reflexivity). }
    rewrite E in IH. exact IH.
Qed.

Lemma new_table t0 i tb : w_table (world_new t0 i tb) = tb.
Proof. unfold world_new. destruct (connection _ _ _ _ _). reflexivity. Qed.

Lemma part_app ys zs : table_part (ys ++ zs) = table_part ys ++ table_part zs.
Proof. apply flat_map_app. Qed.

Section Found.
  Variables (hash : ident -> N) (t0 : Z) (i : identity) (tb : table) (ys zs : list happening) (now : Z) (w : world) (t : Z) (w' : world).
  Let all := ys ++ HTable (TRefresh now) :: zs.
  Hypothesis K : consistent tb.
  Hypothesis Sane : sane tb.
  Hypothesis Ht : forall id s, stored tb id = Some s -> plain s.
  Hypothesis Wi : wf_identity i.
  Hypothesis B : built_ops (table_part ys).
  Hypothesis So : sane_ops (table_part ys).
  Hypothesis Ho : forall n s, In (n, s) (adds (table_part ys)) -> plain s.
  Hypothesis Hc : shown_changes hash tb (table_part all) < 2 ^ 32.
  Hypothesis Z0 : table_part zs = [].
  Hypothesis H : world_run hash (world_new t0 i tb) all = ROk w.
  Hypothesis R : running (w_conn w) = true.
  Hypothesis G : registered (w_seen w) = true.
  Hypothesis L : (5 * SEC <= t - last_check t0 (w_seen w))%Z.
  Hypothesis S : world_step hash w (HTick t) = ROk w'.

  Lemma found_part : table_part all = table_part ys ++ [TRefresh now].
  Proof using Z0. unfold all. rewrite part_app, part_cons, Z0. reflexivity. Qed.

  Lemma found_table : exists t1, tbl_run hash tb (table_part ys) = ROk t1 /\ w_table w' = tbl_refresh now t1 /\
    right_about (tbl_refresh now t1) (believes (w_seen w')).
  Proof using K Ht Wi B Ho Hc Z0 H R G L S.
    pose proof found_part as P.
    assert (A : adds (table_part all) = adds (table_part ys)).
    { rewrite P. unfold adds. rewrite flat_map_app. cbn. apply app_nil_r. }
    assert (B' : built_ops (table_part all)) by (unfold built_ops; rewrite A; exact B).
    assert (Ho' : forall n s, In (n, s) (adds (table_part all)) -> plain s) by (rewrite A; exact Ho).
    destruct (server_fresh hash t0 i tb all w t w' K Ht Wi B' Ho' Hc H R G L S) as [E Q].
    pose proof (world_table hash all _ _ H) as T. rewrite new_table, P in T.
    destruct (tbl_run hash tb (table_part ys)) as [t1| |] eqn:T1.
    - rewrite (run_app _ _ _ _ _ T1) in T. cbn [tbl_run tbl_step] in T. injection T as T.
      exists t1. rewrite E, <- T in *. rewrite T in Q. rewrite T. auto.
    - exfalso. revert T. clear -T1. revert T1. generalize (table_part ys). intros l. revert tb.
      induction l as [|o l IH]; cbn [tbl_run app]; intros u T1; [discriminate|].
      destruct (tbl_step hash u o); try discriminate. now apply IH.
    - exfalso. revert T. clear -T1. revert T1. generalize (table_part ys). intros l. revert tb.
      induction l as [|o l IH]; cbn [tbl_run app]; intros u T1; [discriminate|].
      destruct (tbl_step hash u o); try discriminate. now apply IH.
  Qed.

  Lemma found_announced k s x : last_service k (adds (table_part ys)) None = Some s -> last_added k (adds (table_part ys)) None = Some x ->
    svc_is_control s = false -> (now - 1200 <= x)%Z -> exists id, In (announce (id, s)) (believes (w_seen w')).
  Proof using All.
    intros Hs Hx Hn Hl. destruct found_table as (t1 & T1 & _ & Q).
    destruct (last_service_in _ _ _ _ Hs) as [D|(Hk & n & Hin)]; [discriminate|].
    destruct (added_assigned hash _ _ _ K B T1 _ _ Hin) as (id & Ha). rewrite Hk in Ha. exists id. apply Q. exists id, s. split; [|reflexivity].
    pose proof (run_last hash _ _ _ K B T1 k id Ha) as St. rewrite (last_service_some _ _ _ (stored tb id) Hs) in St.
    destruct (static t1 id) as [[]|] eqn:E.
    - apply (static_shown hash (table_part ys) tb t1 now k id s K B T1 St Hk Hn E). right. exists n, s. auto.
    - apply (discovered_expire hash (table_part ys) tb t1 now k id s K Sane B So T1 St Hk Hn E). exists x. split; [|exact Hl].
      now apply last_added_some.
    - unfold static, stored in *. destruct (alookup id (t_map t1)); discriminate.
  Qed.

  Lemma announced_found e : In e (believes (w_seen w')) ->
    exists id s, e = announce (id, s) /\ stored (w_table w') id = Some s /\ svc_is_control s = false /\
      (static (w_table w') id = Some true /\ (enabled tb id \/ was_added (to_ident s) (table_part ys)) \/
       static (w_table w') id = Some false /\
       exists x, last_added (to_ident s) (adds (table_part ys)) (seen tb id) = Some x /\ (now - 1200 <= x)%Z).
  Proof using All.
    intros He. destruct found_table as (t1 & T1 & E & Q). destruct (proj1 (Q e) He) as (id & s & Hs & Ee).
    exists id, s. split; [exact Ee|].
    pose proof (run_consistent hash _ _ _ K B T1) as K1. pose proof (refresh_consistent now _ K1) as K2.
    rewrite E, stored_refresh. rewrite shown_entry in Hs by exact K2.
    assert (X : stored t1 id = Some s /\ svc_is_control s = false).
    { rewrite <- (stored_refresh now). unfold stored. destruct (alookup id (t_map (tbl_refresh now t1))) as [n|]; [|discriminate].
      destruct (is_visible n); [|discriminate]. cbn [andb] in Hs. destruct (svc_is_control (n_svc n)) eqn:C; [discriminate|].
      cbn [negb] in Hs. injection Hs as <-. auto. }
    destruct X as [St Hn]. split; [exact St|]. split; [exact Hn|].
    assert (Sh : shown (tbl_refresh now t1) id = Some s) by (rewrite shown_entry by exact K2; exact Hs).
    assert (Es : static (tbl_refresh now t1) id = static t1 id).
    { unfold static. rewrite refresh_entry. destruct (alookup id (t_map t1)); reflexivity. }
    rewrite Es. destruct (static t1 id) as [[]|] eqn:F.
    - left. split; [reflexivity|].
      now apply (static_shown hash (table_part ys) tb t1 now _ id s K B T1 St eq_refl Hn F).
    - right. split; [reflexivity|]. now apply (discovered_expire hash (table_part ys) tb t1 now _ id s K Sane B So T1 St eq_refl Hn F).
    - unfold static, stored in *. destruct (alookup id (t_map t1)); discriminate.
  Qed.
End Found.
