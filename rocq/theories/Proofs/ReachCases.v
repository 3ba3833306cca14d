(** Examples and counterexamples about announced services. *)
From Coq Require Import NArith ZArith List Bool Lia.
From Verif.Model Require Import Bytes Frame Service Control Alist SvcTable Session Manager Client Config.
From Verif.Spec Require Import ControlSpec ClientSpec TableSpec ConfigSpec ReachSpec.
From Verif.Proofs Require Import TableCases ClientPropsPf2 ConfigCases.
Import ListNotations.
Local Open Scope N_scope.

Definition dev (n : N) : service := svc_tcp n {| sa_ip := V4 n; sa_port := 80 |}.
Definition cA : config := cfg_run hash0 c0 [CScan [(5%Z, dev 11)] 6%Z].
Definition cB : config := cfg_run hash0 cA [CReset; CScan [(7%Z, dev 12)] 8%Z].
Definition tA : table := match current cA with Some t => t | None => table_new 0 end.
Definition tB : table := match current cB with Some t => t | None => table_new 0 end.
Definition get_id_of (t : table) (k : ident) : option N := match tbl_get_id t k with ROk x => x | _ => None end.
Definition env_of (own cur : table) (svcs : list service) : env :=
  {| e_table := view_of own; e_scanning := false; e_diagnostic := false; e_hosts := []; e_services := svcs; e_get_id := get_id_of cur |}.
Definition get_report : amsg := control_msg [0; 48; 0; 10].
Definition connect_one : amsg := control_msg [0; 50; 0; 13; 0; 1; 0; 0; 0; 7].
Definition reset_events : list kev :=
  [KPoll []; KPoll [SMsg 1 (env_of tA tA [dev 11]) (ack_msg 0 0)];
   KPoll [SMsg 2 (env_of tA tB [dev 12]) get_report]; KPoll [SMsg 3 (env_of tA tB [dev 12]) connect_one]].

Lemma report_after_reset :
  exists (hash : ident -> N) (c : config) (own cur : table) (i : identity) (es : list kev) (k : conn) (h h1 h2 : list cobs)
         (e : env) (m : amsg) (sid : N) (ty : svc_type) (mac : N) (a : saddr) (x : entry) (id : N),
    current c = Some own /\
    (exists l now, current (cfg_run hash c [CReset; CScan l now]) = Some cur /\
       cell (cfg_run hash c [CReset; CScan l now]) (get_service_table c) = Some own) /\
    (forall t en mm items, In (KPoll items) es -> In (SMsg t en mm) items ->
       e_table en = view_of own /\ exists tb, (tb = own \/ tb = cur) /\ forall ki, tbl_get_id tb ki = ROk (e_get_id en ki)) /\
    connection 0 i (view_of own) (view_of own) es = (k, h) /\
    h = h1 ++ XRecv e m :: XMgr (OOpen sid ty mac a) :: h2 /\
    server_says m {| cm_id := id; cm_type := 13; cm_body := BConnect (e_id x) sid |} /\
    learnt reported_as h x /\ (e_mac x <> mac /\ e_ip x <> Some (sa_ip a)).
Proof.
  destruct (connection 0 race_id (view_of tA) (view_of tA) reset_events) as [k h] eqn:E.
  exists hash0, cA, tA, tB, race_id, reset_events, k, h, (firstn 6 h), (skipn 8 h), (env_of tA tB [dev 12]), connect_one,
    7, TCP, 11, {| sa_ip := V4 11; sa_port := 80 |}, (announce (1, dev 12)), 50.
  split; [vm_compute; reflexivity|]. split; [exists [(7%Z, dev 12)], 8%Z; split; vm_compute; reflexivity|].
  split.
  { intros t en mm items H1 H2. unfold reset_events in H1. cbn [In] in H1.
    assert (G : forall tb ki, tb = tA \/ tb = tB -> tbl_get_id tb ki = ROk (get_id_of tb ki)).
    { intros tb ki Hb. unfold get_id_of, tbl_get_id.
      assert (X : forall t0, t0 = tA \/ t0 = tB -> Forall (fun p => alookup (snd p) (t_map t0) <> None) (t_idents t0))
        by (intros t0 [->| ->]; vm_compute; repeat constructor; discriminate).
      destruct (ilookup ki (t_idents tb)) as [j|] eqn:L; [|reflexivity].
      assert (Hi : In (ki, j) (t_idents tb)).
      { clear -L. induction (t_idents tb) as [|[k v] l IH]; [discriminate|]. cbn [ilookup] in L. destruct (ident_eq_dec ki k) as [<-|]; [injection L as <-; now left|right; auto]. }
      specialize (X tb Hb). rewrite Forall_forall in X. specialize (X _ Hi). cbn [snd] in X.
      destruct (alookup j (t_map tb)); [reflexivity|contradiction]. }
    destruct H1 as [H1|[H1|[H1|[H1|[]]]]]; injection H1 as <-; cbn [In] in H2.
    - destruct H2.
    - destruct H2 as [H2|[]]. injection H2 as _ <- _. split; [reflexivity|]. exists tA. split; [auto|]. intros ki. apply G. auto.
    - destruct H2 as [H2|[]]. injection H2 as _ <- _. split; [reflexivity|]. exists tB. split; [auto|]. intros ki. apply G. auto.
    - destruct H2 as [H2|[]]. injection H2 as _ <- _. split; [reflexivity|]. exists tB. split; [auto|]. intros ki. apply G. auto. }
  split; [exact E|].
  assert (X : snd (connection 0 race_id (view_of tA) (view_of tA) reset_events) = h) by now rewrite E.
  clear E. split; [rewrite <- X; vm_compute; reflexivity|].
  split; [split; [reflexivity|apply (SM_connect 50 1 7); reflexivity]|].
  split; [|split; [discriminate|cbn; intros Q; discriminate]].
  exists 2%Z. eexists. split; [rewrite <- X; vm_compute; do 4 right; left; reflexivity|].
  eexists. split; [vm_compute; reflexivity|]. left. reflexivity.
Qed.

(** An announced service, connected after its address changed. *)
Definition opsA : list top := [TAdd 5 (dev 11); TRefresh 6; TAdd 7 (svc_tcp 11 {| sa_ip := V4 99; sa_port := 80 |}); TRefresh 8].
Definition after (n : nat) : table := match tbl_run hash0 (table_new 0) (firstn n opsA) with ROk t => t | _ => table_new 0 end.
Definition reach_events : list kev :=
  [KPoll []; KPoll [SMsg 1 (env_of (after 2) (after 2) []) (ack_msg 0 0)]; KPoll [SMsg 3 (env_of (after 4) (after 4) []) connect_one]].

Lemma reach_case :
  exists k h, connection 0 race_id (view_of (after 2)) (view_of (after 2)) reach_events = (k, h) /\
    Forall (looks_at (moment hash0 (table_new 0) opsA)) reach_events /\ wf_identity race_id /\ bytes_received h /\
    (forall now s, In (now, s) (adds opsA) -> plain s) /\
    learnt announced_as h (announce (1, dev 11)) /\
    exists h1 h2, h = h1 ++ XMgr (OOpen 7 TCP 11 {| sa_ip := V4 99; sa_port := 80 |}) :: h2.
Proof.
  destruct (connection 0 race_id (view_of (after 2)) (view_of (after 2)) reach_events) as [k h] eqn:E.
  exists k, h. split; [reflexivity|].
  assert (X : snd (connection 0 race_id (view_of (after 2)) (view_of (after 2)) reach_events) = h) by now rewrite E.
  clear E.
  assert (M : forall n, (n <= 4)%nat -> moment hash0 (table_new 0) opsA (after n)).
  { intros n Hn. exists (firstn n opsA), (skipn n opsA). split; [symmetry; apply firstn_skipn|].
    do 5 (destruct n as [|n]; [vm_compute; reflexivity|]). lia. }
  split.
  { repeat constructor; cbn [looks_at In]; intros t en m H; try contradiction; destruct H as [H|[]]; injection H as _ <- _.
    - exists (after 2). split; [apply M; lia|reflexivity].
    - exists (after 4). split; [apply M; lia|reflexivity]. }
  split; [repeat split; try reflexivity; intros []|].
  split.
  { intros e m Hm.
    assert (F : forallb (fun x => match x with XRecv _ m => forallb (fun b => b <? 256) (m_payload m) | _ => true end) h = true)
      by (rewrite <- X; vm_compute; reflexivity).
    rewrite forallb_forall in F. specialize (F _ Hm). cbv beta iota in F. rewrite forallb_forall in F.
    unfold wf_bytes. apply Forall_forall. intros b Hb. apply N.ltb_lt. now apply F. }
  split.
  { intros now s H. cbn in H. repeat match goal with H : _ \/ _ |- _ => destruct H as [H|H]; [injection H as <- <-|] end; try contradiction.
    all: split; [split; [|split]; cbn; intros ? Hq; inversion Hq; subst; repeat constructor|intros p Hp; discriminate]. }
  split.
  { exists 0%Z. eexists. split; [rewrite <- X; vm_compute; left; reflexivity|]. left. eexists _, _. split; [vm_compute; reflexivity|]. left. reflexivity. }
  exists (firstn 4 h), (skipn 5 h). rewrite <- X. vm_compute. reflexivity.
Qed.
