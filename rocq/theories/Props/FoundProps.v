(** C129: the server is told about a service exactly while it was found within the last 1200 seconds.

    A table [tb] and a connection made with it go through the events [ys]: services are found, the timer fires, the
    server talks. Then a scan ends and brings the flags of the table up to date at the time [now]; then anything
    happens that does not touch the table ([zs]); then a tick of the established connection five seconds after its
    last check. Combines C36 and C123. *)
From Coq Require Import NArith ZArith List Bool.
From Verif.Model Require Import Bytes Frame Service Control Alist SvcTable Session Manager Client Config.
From Verif.Spec Require Import ControlSpec ClientSpec TableSpec ConfigSpec ReachSpec CurrentSpec.
From Verif.Proofs Require Import TableProofs TableCases ClientPropsPf2 ReachCases CurrentCases FoundPf FoundCases.
Import ListNotations.
Local Open Scope N_scope.

(** What was last found as [s], no more than 1200 seconds ago, the server knows as [s]. *)
Theorem C129_found :
  forall (hash : ident -> N) (t0 : Z) (i : identity) (tb : table) (ys zs : list happening) (now : Z) (w : world) (t : Z) (w' : world),
    consistent tb -> sane tb -> (forall id s, stored tb id = Some s -> plain s) -> wf_identity i ->
    built_ops (table_part ys) -> sane_ops (table_part ys) -> (forall n s, In (n, s) (adds (table_part ys)) -> plain s) ->
    shown_changes hash tb (table_part (ys ++ HTable (TRefresh now) :: zs)) < 2 ^ 32 -> table_part zs = [] ->
    world_run hash (world_new t0 i tb) (ys ++ HTable (TRefresh now) :: zs) = ROk w ->
    running (w_conn w) = true -> registered (w_seen w) = true ->
    (5 * SEC <= t - last_check t0 (w_seen w))%Z -> world_step hash w (HTick t) = ROk w' ->
    forall (k : ident) (s : service) (x : Z),
      last_service k (adds (table_part ys)) None = Some s -> last_added k (adds (table_part ys)) None = Some x ->
      svc_is_control s = false -> (now - 1200 <= x)%Z ->
      exists id, In (announce (id, s)) (believes (w_seen w')).
Proof. exact found_announced. Qed.
Print Assumptions C129_found.

(** Everything the server knows is a service of the table that was found no more than 1200 seconds ago, or one that
    is marked as static and was switched on before or added since. *)
Theorem C129_only :
  forall (hash : ident -> N) (t0 : Z) (i : identity) (tb : table) (ys zs : list happening) (now : Z) (w : world) (t : Z) (w' : world),
    consistent tb -> sane tb -> (forall id s, stored tb id = Some s -> plain s) -> wf_identity i ->
    built_ops (table_part ys) -> sane_ops (table_part ys) -> (forall n s, In (n, s) (adds (table_part ys)) -> plain s) ->
    shown_changes hash tb (table_part (ys ++ HTable (TRefresh now) :: zs)) < 2 ^ 32 -> table_part zs = [] ->
    world_run hash (world_new t0 i tb) (ys ++ HTable (TRefresh now) :: zs) = ROk w ->
    running (w_conn w) = true -> registered (w_seen w) = true ->
    (5 * SEC <= t - last_check t0 (w_seen w))%Z -> world_step hash w (HTick t) = ROk w' ->
    forall e, In e (believes (w_seen w')) ->
    exists id s, e = announce (id, s) /\ stored (w_table w') id = Some s /\ svc_is_control s = false /\
      (static (w_table w') id = Some true /\ (enabled tb id \/ was_added (to_ident s) (table_part ys)) \/
       static (w_table w') id = Some false /\
       exists x, last_added (to_ident s) (adds (table_part ys)) (seen tb id) = Some x /\ (now - 1200 <= x)%Z).
Proof. exact announced_found. Qed.
Print Assumptions C129_only.

(** One device was found 110 seconds ago, another one not for 1200 seconds: the server is told to forget it. *)
Example C129_case :
  consistent (after 2) /\ sane (after 2) /\ (forall id s, stored (after 2) id = Some s -> plain s) /\ wf_identity race_id /\
  built_ops (table_part found_ys) /\ sane_ops (table_part found_ys) /\
  (forall n s, In (n, s) (adds (table_part found_ys)) -> plain s) /\
  shown_changes hash0 (after 2) (table_part (found_ys ++ [HTable (TRefresh 1300)])) = 2 /\
  last_service (to_ident (dev 12)) (adds (table_part found_ys)) None = Some (dev 12) /\
  last_added (to_ident (dev 12)) (adds (table_part found_ys)) None = Some 1190%Z /\
  exists w w', world_run hash0 (world_new 0 race_id (after 2)) (found_ys ++ [HTable (TRefresh 1300)]) = ROk w /\
    running (w_conn w) = true /\ registered (w_seen w) = true /\ (5 * SEC <= 10 * SEC - last_check 0 (w_seen w))%Z /\
    world_step hash0 w (HTick (10 * SEC)) = ROk w' /\
    believes (w_seen w) = [announce (1, dev 11); announce (2, dev 12)] /\
    believes (w_seen w') = [announce (2, dev 12)].
Proof. exact found_case. Qed.
