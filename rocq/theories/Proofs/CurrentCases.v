(** An example about what the server believes. *)
From Coq Require Import NArith ZArith List Bool Lia.
From Verif.Model Require Import Bytes Frame Service Control Alist SvcTable Session Manager Client Config.
From Verif.Spec Require Import ControlSpec ClientSpec TableSpec ConfigSpec ReachSpec CurrentSpec.
From Verif.Proofs Require Import TableProofs TableCases TablePropsPf ClientPropsPf2 ReachPf ReachCases.
Import ListNotations.
Local Open Scope N_scope.

Lemma dev_plain n : n < 2 ^ 32 -> plain (dev n).
Proof.
  intros L. split; [|intros p Hp; discriminate]. 
  split; [|split]; cbn; intros ? Hq; inversion Hq; subst; repeat constructor; cbn; try lia.
Qed.

Lemma current_case :
  let ys1 := [HOther (KPoll []); HOther (KPoll [SMsg 1 (env_of (after 2) (after 2) []) (ack_msg 0 0)]); HTable (TAdd 9 (dev 12)); HTick (2 * SEC)] in
  let ys2 := [HTick (5 * SEC); HTable (TAdd 1190 (dev 12)); HTable (TRefresh 1300)] in
  consistent (after 2) /\ wf_identity race_id /\ built_ops (table_part (ys1 ++ ys2)) /\
  (forall id s, stored (after 2) id = Some s -> plain s) /\ (forall now s, In (now, s) (adds (table_part (ys1 ++ ys2))) -> plain s) /\
  shown_changes hash0 (after 2) (table_part (ys1 ++ ys2)) = 2 /\
  exists w1 w2 w3, world_run hash0 (world_new 0 race_id (after 2)) ys1 = ROk w1 /\ world_run hash0 w1 ys2 = ROk w2 /\
    world_step hash0 w2 (HTick (10 * SEC)) = ROk w3 /\ running (w_conn w3) = true /\ registered (w_seen w1) = true /\
    believes (w_seen w1) = [announce (1, dev 11)] /\
    believes (w_seen w2) = [announce (1, dev 11); announce (2, dev 12)] /\
    believes (w_seen w3) = [announce (2, dev 12)].
Proof.
  intros ys1 ys2.
  assert (D11 : plain (dev 11)) by (apply dev_plain; reflexivity). assert (D12 : plain (dev 12)) by (apply dev_plain; reflexivity).
  split.
  { eapply (run_consistent hash0 (firstn 2 opsA) (table_new 0)); [apply table_new_consistent| |vm_compute; reflexivity].
    repeat constructor. }
  split; [repeat split; try reflexivity; intros []|].
  split; [repeat constructor|].
  split.
  { intros id s H.
    assert (F : stored (after 2) id = (if id =? 1 then Some (dev 11) else if id =? 0 then Some svc_control else None)).
    { unfold stored. replace (t_map (after 2)) with (t_map (after 2)) by reflexivity.
      let l := eval vm_compute in (t_map (after 2)) in change (t_map (after 2)) with l.
      cbn [alookup]. destruct (id =? 1) eqn:E1, (id =? 0) eqn:E0; try reflexivity. apply N.eqb_eq in E1, E0. congruence. }
    rewrite F in H. destruct (id =? 1); [injection H as <-; exact D11|]. destruct (id =? 0); [|discriminate]. injection H as <-.
    split; [|intros p Hp; discriminate]. split; [|split]; cbn; intros ? Hq; inversion Hq. }
  split.
  { intros now s H. cbn in H. repeat match goal with H : _ \/ _ |- _ => destruct H as [H|H]; [injection H as <- <-|] end; try contradiction; assumption. }
  split; [vm_compute; reflexivity|].
  set (r1 := world_run hash0 (world_new 0 race_id (after 2)) ys1).
  set (r2 := match r1 with ROk w => world_run hash0 w ys2 | _ => RPanic end).
  set (r3 := match r2 with ROk w => world_step hash0 w (HTick (10 * SEC)) | _ => RPanic end).
  set (ok := fun (r : result world) f => match r with ROk w => f w | _ => false end).
  assert (O1 : ok r1 (fun w => registered (w_seen w)) = true) by (vm_compute; reflexivity).
  assert (O3 : ok r3 (fun w => running (w_conn w)) = true) by (vm_compute; reflexivity).
  assert (B1 : match r1 with ROk w => believes (w_seen w) | _ => [] end = [announce (1, dev 11)]) by (vm_compute; reflexivity).
  assert (B2 : match r2 with ROk w => believes (w_seen w) | _ => [] end = [announce (1, dev 11); announce (2, dev 12)]) by (vm_compute; reflexivity).
  assert (B3 : match r3 with ROk w => believes (w_seen w) | _ => [] end = [announce (2, dev 12)]) by (vm_compute; reflexivity).
  unfold ok in *. clearbody r1. destruct r1 as [w1| |]; try discriminate. cbv iota in r2. exists w1.
  unfold r3 in *. clear r3. unfold r2 in *. clear r2. destruct (world_run hash0 w1 ys2) as [w2| |] eqn:E2; try discriminate. exists w2.
  destruct (world_step hash0 w2 (HTick (10 * SEC))) as [w3| |] eqn:E3; try discriminate. exists w3. auto 10.
Qed.
