(** C123: what the server believes about the services is what the client's table showed at the last check.

    A table [tb] (consistent, see C33 and C73) and a connection made with it go through the events [ys] in any order;
    a tick of the connection reads the table as it is at that time. Each tick sees one table: C29 shows what a change
    in the middle of a tick does. The server reads the client's messages in the order they are queued, which is the
    order in which they arrive (C110). *)
From Coq Require Import NArith ZArith List Bool.
From Verif.Model Require Import Bytes Frame Service Control Alist SvcTable Session Manager Client Config.
From Verif.Spec Require Import ControlSpec ClientSpec TableSpec ConfigSpec ReachSpec CurrentSpec.
From Verif.Proofs Require Import TableProofs TableCases ClientPropsPf2 ReachCases CurrentPf CurrentCases.
Import ListNotations.
Local Open Scope N_scope.

(** At all times, also when the connection is over: the services in the last REGISTER or UPDATE message are exactly
    those that the table showed when the connection was made or last looked for changes. *)
Theorem C123_current :
  forall (hash : ident -> N) (t0 : Z) (i : identity) (tb : table) (ys : list happening) (w : world),
    consistent tb -> (forall id s, stored tb id = Some s -> plain s) -> wf_identity i ->
    built_ops (table_part ys) -> (forall now s, In (now, s) (adds (table_part ys)) -> plain s) ->
    shown_changes hash tb (table_part ys) < 2 ^ 32 ->
    world_run hash (world_new t0 i tb) ys = ROk w ->
    right_about (w_checked w) (believes (w_seen w)).
Proof. exact server_current. Qed.
Print Assumptions C123_current.

(** A tick of an established connection five seconds after the last check makes the server's picture current. *)
Theorem C123_fresh :
  forall (hash : ident -> N) (t0 : Z) (i : identity) (tb : table) (ys : list happening) (w : world) (t : Z) (w' : world),
    consistent tb -> (forall id s, stored tb id = Some s -> plain s) -> wf_identity i ->
    built_ops (table_part ys) -> (forall now s, In (now, s) (adds (table_part ys)) -> plain s) ->
    shown_changes hash tb (table_part ys) < 2 ^ 32 ->
    world_run hash (world_new t0 i tb) ys = ROk w -> running (w_conn w) = true -> registered (w_seen w) = true ->
    (5 * SEC <= t - last_check t0 (w_seen w))%Z -> world_step hash w (HTick t) = ROk w' ->
    w_table w' = w_table w /\ right_about (w_table w') (believes (w_seen w')).
Proof. exact server_fresh. Qed.
Print Assumptions C123_fresh.

(** After any tick of an established connection, the last check is less than five seconds old. *)
Theorem C123_age :
  forall (hash : ident -> N) (w : world) (t : Z) (w' : world),
    running (w_conn w) = true -> registered (w_seen w) = true -> world_step hash w (HTick t) = ROk w' ->
    w_when w' = w_when w /\ w_checked w' = w_checked w /\ (t - w_when w' < 5 * SEC)%Z \/
    w_when w' = t /\ w_checked w' = w_table w'.
Proof. exact tick_age. Qed.
Print Assumptions C123_age.

(** A device is found after registration, another one disappears: the server learns both at the next check. *)
Example C123_case :
  let ys1 := [HOther (KPoll []); HOther (KPoll [SMsg 1 (env_of (after 2) (after 2) []) (ack_msg 0 0)]); HTable (TAdd 9 (dev 12)); HTick (2 * SEC)] in
  let ys2 := [HTick (5 * SEC); HTable (TAdd 1190 (dev 12)); HTable (TRefresh 1300)] in
  consistent (after 2) /\ wf_identity race_id /\ built_ops (table_part (ys1 ++ ys2)) /\
  (forall id s, stored (after 2) id = Some s -> plain s) /\ (forall now s, In (now, s) (adds (table_part (ys1 ++ ys2))) -> plain s) /\
  shown_changes hash0 (after 2) (table_part (ys1 ++ ys2)) = 2 /\
  exists w1 w2 w3, world_run hash0 (world_new 0 race_id (after 2)) ys1 = ROk w1 /\ world_run hash0 w1 ys2 = ROk w2 /\
    world_step hash0 w2 (HTick (10 * SEC)) = ROk w3 /\ running (w_conn w3) = true /\ registered (w_seen w1) = true /\
    believes (w_seen w1) = [announce (1, dev 11)] /\
    believes (w_seen w2) = [announce (1, dev 11); announce (2, dev 12)] /\
    believes (w_seen w3) = [announce (2, dev 12)].
Proof. exact current_case. Qed.
