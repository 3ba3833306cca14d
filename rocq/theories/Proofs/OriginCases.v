(** Concrete cases of the origin of connections. *)
From Coq Require Import String NArith ZArith List Bool Lia.
From Verif.Model Require Import Bytes Frame Text Service Control Http Sdp Discovery Raw Scan Alist SvcTable Session Manager Client Config.
From Verif.Spec Require Import ControlSpec ManagerSpec ClientSpec TableSpec ConfigSpec ReachSpec RawSpec DiscoverySpec ScanSpec OriginSpec.
From Verif.Proofs Require Import BytesFacts ScanCases ClientPropsPf2 TableProofs ConfigProofs TableCases ReachCases OriginPf.
Import ListNotations.
Local Open Scope N_scope.
Local Open Scope list_scope.

Definition scan_with (air : bytes -> bytes -> list bytes -> capture) : scanning :=
  {| n_air := air; n_lossy := fun x => x; n_lc := fun x => x; n_uc := fun x => x; n_describe := fun _ _ => None; n_header := fun _ _ => None;
     n_rtsp := fun _ => true; n_rtsp_paths := []; n_mjpeg_paths := []; n_whitelist := []; n_devices := ex_devices |}.
Definition found (air : bytes -> bytes -> list bytes -> capture) : list service :=
  match result_of (scan_with air) with Gives r => services_of r | _ => [] end.
Definition scan_ops air : list top := map (fun s => TAdd 5 s) (found air) ++ [TRefresh 6].
Definition filled air : table := match tbl_run hash0 (table_new 0) (scan_ops air) with ROk t => t | _ => table_new 0 end.
Definition ask air : list kev :=
  [KPoll []; KPoll [SMsg 1 (env_of (filled air) (filled air) []) (ack_msg 0 0)]; KPoll [SMsg 3 (env_of (filled air) (filled air) []) connect_one]].

Lemma scan_real air : obeys air -> real (scan_with air).
Proof. intros H. split; [exact H|]. exact (ex_all_netted []). Qed.
Lemma origin_case air ip : (air = own_air /\ ip = local_ip) \/ (air = forged_air /\ ip = foreign_ip) ->
  lives [] [scan_with air] (scan_ops air) /\ Forall (looks_at (moment hash0 (table_new 0) (scan_ops air))) (ask air) /\
  exists k h h1 h2 ty, connection 0 race_id (view_of (filled air)) (view_of (filled air)) (ask air) = (k, h) /\ bytes_received h /\
    h = h1 ++ XMgr (OOpen 7 ty ScanCases.cam {| sa_ip := V4 ip; sa_port := 554 |}) :: h2.
Proof.
  intros C.
  assert (S : exists r, result_of (scan_with air) = Gives r /\ found air = services_of r).
  { unfold found. destruct C as [(-> & _)|(-> & _)]; (destruct (result_of _) as [| | |r] eqn:E; [vm_compute in E; discriminate E..|eauto]). }
  destruct S as (r & Er & Ef). split.
  { unfold scan_ops. assert (Em : map (fun s => TAdd 5 s) (found air) = map (fun p : Z * service => TAdd (fst p) (snd p)) (map (fun s => (5%Z, s)) (found air))).
    { now rewrite map_map. }
    rewrite Em. apply (lives_scan [] (scan_with air) r (map (fun s => (5%Z, s)) (found air)) 6 [] []); [constructor|exact Er|].
    rewrite map_map. cbn [snd]. now rewrite map_id. }
  assert (M : moment hash0 (table_new 0) (scan_ops air) (filled air)).
  { exists (scan_ops air), []. split; [now rewrite app_nil_r|]. destruct C as [(-> & _)|(-> & _)]; vm_compute; reflexivity. }
  split.
  { repeat constructor; cbn [looks_at In]; intros t en m H; try contradiction; destruct H as [H|[]]; injection H as _ <- _; exists (filled air); (split; [exact M|reflexivity]). }
  destruct (connection 0 race_id (view_of (filled air)) (view_of (filled air)) (ask air)) as [k h] eqn:E.
  assert (X : snd (connection 0 race_id (view_of (filled air)) (view_of (filled air)) (ask air)) = h) by now rewrite E. clear E.
  assert (F : forallb (fun x => match x with XRecv _ m => forallb (fun b => b <? 256) (m_payload m) | _ => true end) h = true)
    by (rewrite <- X; destruct C as [(-> & _)|(-> & _)]; vm_compute; reflexivity).
  exists k, h, (firstn 4 h), (skipn 5 h), (match nth_error h 4 with Some (XMgr (OOpen _ t _ _)) => t | _ => TCP end). split; [reflexivity|]. split.
  { intros e m Hm. rewrite forallb_forall in F. specialize (F _ Hm). cbv beta iota in F. rewrite forallb_forall in F.
    unfold wf_bytes. apply Forall_forall. intros b Hb. apply N.ltb_lt. now apply F. }
  rewrite <- X. destruct C as [(-> & ->)|(-> & ->)]; vm_compute; reflexivity.
Qed.

Lemma own_local : no_strangers (scan_with own_air).
Proof.
  intros name d flt sent f J. cbn [scan_with n_air n_devices] in *. destruct J as [[= _ <-]|[]].
  unfold own_air, ex_air. destruct (beq flt (arp_filter ex_dev)); [|destruct (beq flt (tcp_filter ex_dev))]; rewrite cap_frames.
  - intros [<-|[]] H. exfalso. revert H. vm_compute. intros H. intuition discriminate.
  - intros [<-|[]] _. vm_compute. reflexivity.
  - intros [].
Qed.
Lemma remote_case :
  exists (hash : ident -> N) (ns : list scanning) (os : list top) (i : identity) (v : view) (es : list kev) (k : conn) (h h1 h2 : list cobs)
         (sid : N) (ty : svc_type) (mac ip port : N),
    lives [] ns os /\ Forall real ns /\ Forall (looks_at (moment hash (table_new 0) os)) es /\
    connection 0 i v v es = (k, h) /\ bytes_received h /\ h = h1 ++ XMgr (OOpen sid ty mac {| sa_ip := V4 ip; sa_port := port |}) :: h2 /\
    forall n name d, In n ns -> In (name, d) (n_devices n) -> N.land ip (dv_mask d) <> network d.
Proof.
  destruct (origin_case forged_air foreign_ip) as (L & M & k & h & h1 & h2 & ty & E & B & H); [now right|].
  exists hash0, [scan_with forged_air], (scan_ops forged_air), race_id, (view_of (filled forged_air)), (ask forged_air), k, h, h1, h2, 7, ty, ScanCases.cam, foreign_ip, 554.
  split; [exact L|]. split; [constructor; [exact (scan_real _ forged_obeys)|constructor]|]. split; [exact M|]. split; [exact E|]. split; [exact B|]. split; [exact H|].
  intros n name d [<-|[]] J. cbn [scan_with n_devices] in J. destruct J as [[= _ <-]|[]]. vm_compute. discriminate.
Qed.
