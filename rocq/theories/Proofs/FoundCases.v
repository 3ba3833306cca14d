(** An example about what was found and what is announced. *)
From Coq Require Import NArith ZArith List Bool Lia.
From Verif.Model Require Import Bytes Frame Service Control Alist SvcTable Session Manager Client Config.
From Verif.Spec Require Import ControlSpec ClientSpec TableSpec ConfigSpec ReachSpec CurrentSpec.
From Verif.Proofs Require Import TableProofs TableCases TablePropsPf ClientPropsPf2 ReachPf ReachCases CurrentCases.
Import ListNotations.
Local Open Scope N_scope.

Definition found_ys := [HOther (KPoll []); HOther (KPoll [SMsg 1 (env_of (after 2) (after 2) []) (ack_msg 0 0)]);
  HTable (TAdd 9 (dev 12)); HTick (2 * SEC); HTick (5 * SEC); HTable (TAdd 1190 (dev 12))]%list.

Lemma found_case :
  consistent (after 2) /\ sane (after 2) /\ (forall id s, stored (after 2) id = Some s -> plain s) /\ wf_identity race_id /\
  built_ops (table_part found_ys) /\ sane_ops (table_part found_ys) /\
  (forall n s, In (n, s) (adds (table_part found_ys)) -> plain s) /\
  shown_changes hash0 (after 2) (table_part (found_ys ++ [HTable (TRefresh 1300)])) = 2 /\
  last_service (to_ident (dev 12)) (adds (table_part found_ys)) None = Some (dev 12) /\
  last_added (to_ident (dev 12)) (adds (table_part found_ys)) None = Some 1190%Z /\
  exists w w', world_run hash0 (world_new 0 race_id (after 2)) (found_ys ++ [HTable (TRefresh 1300)]) = ROk w /\
    running (w_conn w) = true /\ registered (w_seen w) = true /\ (5 * SEC <= 10 * SEC - last_check 0 (w_seen w))%Z /\
    world_step hash0 w (HTick (10 * SEC)) = ROk w' /\
    believes (w_seen w) = [announce (1, dev 11); announce (2, dev 12)] /\
    believes (w_seen w') = [announce (2, dev 12)].
Proof.
  pose proof current_case as C. cbv zeta in C. destruct C as (C1 & C2 & C3 & C4 & C5 & C6 & _).
  split; [exact C1|]. split.
  { intros id x H.
    assert (F : seen (after 2) id = (if id =? 1 then seen (after 2) 1 else if id =? 0 then seen (after 2) 0 else None)).
    { unfold seen. let l := eval vm_compute in (t_map (after 2)) in change (t_map (after 2)) with l.
      cbn [alookup]. destruct (id =? 1) eqn:E1, (id =? 0) eqn:E0; try reflexivity. apply N.eqb_eq in E1, E0. congruence. }
    rewrite F in H. assert (X : forall v z, seen (after 2) v = Some z -> v = 0 \/ v = 1 -> sane_time z).
    { intros v z Hv [Ev|Ev]; subst v; vm_compute in Hv; injection Hv as <-; unfold sane_time; split; vm_compute; congruence. }
    destruct (id =? 1); [exact (X 1 x H ltac:(now right))|]. destruct (id =? 0); [exact (X 0 x H ltac:(now left))|discriminate]. }
  split; [exact C4|]. split; [exact C2|]. split; [repeat constructor|].
  split.
  { unfold sane_ops. change (adds (table_part found_ys)) with [(9%Z, dev 12); (1190%Z, dev 12)].
    apply Forall_cons; [|apply Forall_cons; [|apply Forall_nil]]; unfold sane_time; cbn [fst]; split; vm_compute; congruence. }
  split. { intros n s H. apply (C5 n s). exact H. }
  split; [vm_compute; reflexivity|]. split; [vm_compute; reflexivity|]. split; [vm_compute; reflexivity|].
  set (r1 := world_run hash0 (world_new 0 race_id (after 2)) (found_ys ++ [HTable (TRefresh 1300)])).
  set (r2 := match r1 with ROk w => world_step hash0 w (HTick (10 * SEC)) | _ => RPanic end).
  set (ok := fun (r : result world) f => match r with ROk w => f w | _ => false end).
  assert (O1 : ok r1 (fun w => registered (w_seen w)) = true) by (vm_compute; reflexivity).
  assert (O2 : ok r1 (fun w => running (w_conn w)) = true) by (vm_compute; reflexivity).
  assert (O3 : ok r1 (fun w => (5 * SEC <=? 10 * SEC - last_check 0 (w_seen w))%Z) = true) by (vm_compute; reflexivity).
  assert (B1 : match r1 with ROk w => believes (w_seen w) | _ => [] end = [announce (1, dev 11); announce (2, dev 12)]) by (vm_compute; reflexivity).
  assert (B2 : match r2 with ROk w => believes (w_seen w) | _ => [] end = [announce (2, dev 12)]) by (vm_compute; reflexivity).
  unfold ok in *. clearbody r1. destruct r1 as [w| |]; try discriminate. cbv iota in r2. exists w. unfold r2 in *. clear r2.
  destruct (world_step hash0 w (HTick (10 * SEC))) as [w'| |] eqn:E; try discriminate. exists w'. apply Z.leb_le in O3. auto 10.
Qed.
