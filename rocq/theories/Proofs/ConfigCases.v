(** Counterexamples about the configuration. *)
From Coq Require Import NArith ZArith List Bool Lia.
From Verif.Model Require Import Bytes Service Alist SvcTable TableJson Config Client.
From Verif.Spec Require Import TableSpec ClientSpec ConfigSpec.
From Verif.Proofs Require Import TableProofs TablePropsPf TableJsonPf TableCases ClientPropsPf2 ConfigProofs.
Import ListNotations.
Local Open Scope N_scope.
Local Open Scope list_scope.

Definition p0 : pconfig := {| p_uuid := 1; p_passwd := 2; p_version := 0; p_table := table_new 0 |}.
Definition c0 : config := match build_config hash0 p0 [] false with ROk c => c | _ =>
  {| g_uuid := 0; g_passwd := 0; g_version := 0; g_heap := []; g_cur := O; g_default := table_new 0; g_flash := false |} end.
Definition c1 : config := cfg_run hash0 c0 [CScan [(5%Z, cam)] 6%Z].
Definition t1 : table := match current c1 with Some t => t | None => table_new 0 end.
Definition up1 : list kev := [KPoll []; KPoll [SMsg 1 (env0 (view_of t1)) (ack_msg 0 0)]].

Lemma reset_refuted :
  exists (hash : ident -> N) (c : config) (t t2 : table) (i : identity) (es : list kev) (k : conn) (h : list cobs) (id : N),
    current c = Some t /\ connection 0 i (view_of t) (view_of t) es = (k, h) /\ k_result k = None /\ registered h = true /\
    current (fst (cfg_reset c)) = Some t2 /\ shown t2 id <> shown t id /\
    forall l : list (list cop * kev),
      (forall os e, In (os, e) l -> reads (cfg_run hash (fst (cfg_reset c)) os) (get_service_table c) e) ->
      existsb is_update (snd (conn_run k (map snd l))) = false.
Proof.
  destruct (connection 0 race_id (view_of t1) (view_of t1) up1) as [k h] eqn:E.
  exists hash0, c1, t1. eexists. exists race_id, up1, k, h, 1. split; [vm_compute; reflexivity|]. split; [exact E|].
  assert (X : k_result k = None /\ registered h = true /\ c_version (k_ctx k) = t_vversion t1).
  { assert (Y : (let '(k, h) := connection 0 race_id (view_of t1) (view_of t1) up1 in
      (k_result k, registered h, c_version (k_ctx k))) = (None, true, t_vversion t1)) by (vm_compute; reflexivity).
    rewrite E in Y. clear E. generalize dependent k. intros k Y.
    assert (Z1 := f_equal (fun x => fst (fst x)) Y). assert (Z2 := f_equal (fun x => snd (fst x)) Y).
    assert (Z3 := f_equal snd Y). cbn [fst snd] in *. auto. }
  destruct X as (X1 & X2 & X3). split; [exact X1|]. split; [exact X2|]. split; [vm_compute; reflexivity|].
  split; [vm_compute; discriminate|]. intros l Hl. apply (reset_silent hash0 c1 t1 k l); [vm_compute; reflexivity|exact X3|exact Hl].
Qed.

Definition one (n : N) : bytes := [n].
Definition unone (s : bytes) : option N := match s with [n] => Some n | _ => None end.

Lemma stamp x : ((- 2 ^ 63 <=? x) && (x <? 2 ^ 63))%Z = true -> timestamp x.
Proof. unfold timestamp. intros H. apply andb_true_iff in H as [A B]. apply Z.leb_le in A. apply Z.ltb_lt in B. auto. Qed.
Lemma good_cam : good_additions enc dec [(5%Z, cam)].
Proof.
  constructor; [|constructor]. split; [apply stamp; reflexivity|]. split; [constructor|]. split; [|split].
  - intros m [= <-]. reflexivity.
  - intros a _. apply dec_enc.
  - intros [H|H]; discriminate.
Qed.
Lemma good_none : good_additions enc dec [].
Proof. constructor. Qed.

Lemma crash_refuted :
  exists (hash : ident -> N) (aprint : saddr -> bytes) (aparse : bytes -> option saddr)
         (uprint : N -> bytes) (uparse : bytes -> option N) (es : list wevent) (a b : N * N),
    (forall u, uparse (uprint u) = Some u) /\ (forall x, aparse (aprint x) = Some x) /\
    Forall (good_event aprint aparse) es /\
    snd (world_run hash aprint aparse uprint uparse false false blank es) = [a; b] /\ a <> b.
Proof.
  exists hash0, enc, dec, one, unone,
    [WStart (1, 2) 0 Wrote false [] Wrote; WScan [(5%Z, cam)] 6 Torn; WKill; WStart (3, 4) 7 Wrote false [] Wrote], (1, 2), (3, 4).
  split; [reflexivity|]. split; [exact dec_enc|]. split.
  - repeat (constructor; cbn [good_event]; auto using good_cam, good_none, stamp); apply stamp; reflexivity.
  - split; [vm_compute; reflexivity|discriminate].
Qed.

Definition cam' : service := svc_rtsp 1 {| sa_ip := V4 8; sa_port := 80 |} [47].

Lemma wasted_refuted :
  exists (hash : ident -> N) (c : config) (l : list (Z * service)) (now : Z) (c' : config) (p : pconfig) (t t' : table),
    current c = Some t /\ cfg_update hash c l now = ROk (c', Some p) /\ current c' = Some t' /\
    (forall id, stored t' id = stored t id /\ shown t' id = shown t id).
Proof.
  exists hash0, (cfg_run hash0 c0 [CScan [(5%Z, cam); (5%Z, cam')] 6%Z]), [(7%Z, cam); (7%Z, cam')], 8%Z.
  eexists. eexists. eexists. eexists.
  split; [vm_compute; reflexivity|]. split; [vm_compute; reflexivity|]. split; [vm_compute; reflexivity|].
  intros id. unfold stored, shown, tbl_visible. cbn [t_map alookup].
  destruct (N.eqb id 0); [split; reflexivity|]. destruct (N.eqb id 1); split; reflexivity.
Qed.

Lemma retry_refuted :
  exists (hash : ident -> N) (aprint : saddr -> bytes) (aparse : bytes -> option saddr)
         (uprint : N -> bytes) (uparse : bytes -> option N) (fresh : N * N) (l : list (Z * service)) (c : config) (t : table) (p : pconfig),
    (forall u, uparse (uprint u) = Some u) /\ (forall x, aparse (aprint x) = Some x) /\
    let w := fst (world_run hash aprint aparse uprint uparse true false blank
               [WStart fresh 0 Wrote false [] Wrote; WScan l 6 Kept; WScan l 7 Wrote; WScan l 8 Wrote]) in
    w_app w = Some c /\ current c = Some t /\ load_file aparse uparse 9 (w_config w) = ROk p /\
    exists id, stored t id <> None /\ stored (p_table p) id = None.
Proof.
  exists hash0, enc, dec, one, unone, (1, 2), [(5%Z, cam)]. eexists. eexists. eexists.
  split; [reflexivity|]. split; [exact dec_enc|]. cbv zeta. split; [vm_compute; reflexivity|]. split; [vm_compute; reflexivity|].
  split; [vm_compute; reflexivity|]. exists 1. split; [vm_compute; discriminate|vm_compute; reflexivity].
Qed.

Lemma reset_written c t : current c = Some t ->
  let '(c', p) := cfg_reset c in
  p = {| p_uuid := g_uuid c; p_passwd := g_passwd c; p_version := g_version c + 1; p_table := g_default c |} /\
  current c' = Some (g_default c) /\ g_version c' = g_version c + 1.
Proof.
  intros _. unfold cfg_reset, current, cell. cbn [with_heap g_heap g_cur g_version]. split; [reflexivity|]. split; [|reflexivity].
  rewrite nth_error_app2 by lia. now rewrite PeanoNat.Nat.sub_diag.
Qed.
