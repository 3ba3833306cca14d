(** From what was configured and heard to the connections a server can ask for. *)
From Coq Require Import String NArith ZArith List Bool Lia.
From Verif.Model Require Import Bytes Frame Text Service Control Http Sdp Discovery Raw Scan Alist SvcTable Session Manager Client Config.
From Verif.Spec Require Import ControlSpec ManagerSpec ClientSpec TableSpec ConfigSpec ReachSpec RawSpec DiscoverySpec ScanSpec OriginSpec.
From Verif.Proofs Require Import BytesFacts DiscMaps DiscReport ScanWhole ClientPropsPf2 ReachPf.
Import ListNotations.
Local Open Scope N_scope.
Local Open Scope list_scope.

(** ** Services of a report *)
Lemma rtsp_loop_built lossy lc uc describe mac a paths : forall res v, built res ->
  rtsp_loop false lossy lc uc describe mac a paths res = ROk v -> built v.
Proof.
  induction paths as [|p paths IH]; intros res v B; cbn [rtsp_loop]; [now intros [= <-]|]. unfold get_rtsp_stream.
  destruct (get_rtsp_stream_type _ _ _ _ _ _ _) as [[]| |]; try discriminate; cbn [s_type svc_rtsp svc_locked_rtsp svc_unsupported_rtsp].
  all: first [intros [= <-]; constructor | apply IH; first [exact B | constructor]].
Qed.
Lemma mjpeg_built lc get_header mac a paths : forall v, find_mjpeg_path lc get_header paths mac a = Some v -> built v.
Proof.
  induction paths as [|p paths IH]; intros v; cbn [find_mjpeg_path]; [discriminate|]. unfold get_mjpeg_stream at 1.
  destruct (get_header a p) as [h|]; [|apply IH]. destruct (mjpeg_stream_type lc h); try apply IH; intros [= <-]; constructor.
Qed.
Lemma services_at r v : scan_ok r -> In v (services_of r) -> service_at r (to_ident v) = Some v.
Proof.
  intros O H. unfold services_of in H. apply in_map_iff in H as ((i & w) & <- & H). cbn [snd]. unfold service_at.
  rewrite <- (ok_idents r O i w H). apply in_mget; [exact (ok_services r O)|exact H].
Qed.
Section One.
Variable n : scanning.
Variable r : scan.
Hypothesis R : real n.
Hypothesis E : result_of n = Gives r.
Lemma result_ok : scan_ok r /\ forall v, In v (services_of r) -> built v.
Proof using R E.
  destruct R as (OB & NT). pose proof (whole_cases (n_air n) OB (n_lossy n) (n_lc n) (n_uc n) (n_describe n) (n_header n) (n_rtsp n)
    (n_rtsp_paths n) (n_mjpeg_paths n) (n_whitelist n) (n_devices n) NT) as W. fold (result_of n) in W. rewrite E in W.
  destruct W as (l & _ & SN & _).
  destruct (report_spec (n_lossy n) (n_lc n) (n_uc n) (n_describe n) (n_header n) (n_rtsp n) (n_rtsp_paths n) (n_mjpeg_paths n) (n_whitelist n) l)
    as (r' & streams & E' & Or & _ & F & G). cbv zeta in *. rewrite SN in E'. injection E' as <-. split; [exact Or|].
  intros v H. apply (services_at r v Or) in H. apply G in H as (x & y & L & _ & _).
  destruct (all_cases (n_lossy n) (n_lc n) (n_uc n) (n_describe n) (n_header n) (n_rtsp n) (n_rtsp_paths n) (n_mjpeg_paths n) _ streams v F) as (c & _ & _ & T); [rewrite L; apply in_or_app; right; now left|].
  destruct T as [(_ & _ & T)|[(_ & _ & ->)|[(_ & _ & T)|(_ & _ & ->)]]]; [|constructor| |constructor].
  - unfold find_rtsp_stream in T. exact (rtsp_loop_built _ _ _ _ _ _ _ _ _ (b_unknown_rtsp _ _) T).
  - exact (mjpeg_built _ _ _ _ _ _ T).
Qed.
Lemma result_answered v a : In v (services_of r) -> s_addr v = Some a -> exists d, answered n d a.
Proof using R E.
  intros H Ha. apply (services_at r v (proj1 result_ok)) in H. destruct R as (OB & NT).
  destruct (services_heard (n_air n) OB (n_lossy n) (n_lc n) (n_uc n) (n_describe n) (n_header n) (n_rtsp n)
    (n_rtsp_paths n) (n_mjpeg_paths n) (n_whitelist n) (n_devices n) NT r E _ _ H) as (name & d & A & I & T & hosts & mac & ip & port & J & Q & S & _ & Ha' & P & D).
  rewrite Ha in Ha'. injection Ha' as ->. exists d, name, A, I, T, hosts, mac, ip, port. auto 10.
Qed.
End One.

(** ** Tables *)
Lemma lives_adds fixed ns os : lives fixed ns os -> Forall real ns -> Forall built fixed ->
  built_ops os /\ forall now s, In (now, s) (adds os) -> In s fixed \/ exists n r, In n ns /\ result_of n = Gives r /\ In s (services_of r).
Proof.
  intros L Rn Bf. unfold built_ops. induction L as [|now s ns os L IH Hs|n r l now ns os L IH Er El].
  - split; [constructor|intros now s []].
  - destruct (IH Rn) as (B & C). unfold adds in *. rewrite flat_map_app. cbn [flat_map added app]. split.
    + apply Forall_app. split; [exact B|]. constructor; [|constructor]. cbn [snd]. rewrite Forall_forall in Bf. now apply Bf.
    + intros now' s' H. apply in_app_or in H as [H|[[= _ <-]|[]]]; [exact (C _ _ H)|now left].
  - apply Forall_app in Rn as (Rn & Rl). inversion Rl as [|? ? R1 _]. subst. destruct (IH Rn) as (B & C). unfold adds in *. rewrite !flat_map_app. cbn [flat_map added app].
    rewrite app_nil_r.
    assert (Em : flat_map (fun o => match added o with Some p => [p] | None => [] end) (map (fun p : Z * service => TAdd (fst p) (snd p)) l) = l).
    { clear. induction l as [|[z s] l IH]; [reflexivity|]. cbn [map flat_map added fst snd app]. now rewrite IH. }
    rewrite Em. assert (Hl : forall p, In p l -> In (snd p) (services_of r)) by (intros p Hp; rewrite <- El; now apply in_map).
    split.
    + apply Forall_app. split; [exact B|]. apply Forall_forall. intros p Hp. apply (proj2 (result_ok n r R1 Er)). now apply Hl.
    + intros now' s' H. apply in_app_or in H as [H|H].
      * destruct (C _ _ H) as [C1|(m & rm & Hm & Em' & Hs)]; [now left|]. right. exists m, rm. split; [apply in_or_app; now left|]. auto.
      * right. exists n, r. split; [apply in_or_app; right; now left|]. split; [exact Er|]. exact (Hl _ H).
Qed.
Lemma last_in k : forall l d s, last_service k l d = Some s -> d = Some s \/ exists now, In (now, s) l.
Proof.
  induction l as [|[z s0] l IH]; intros d s; cbn [last_service]; [auto|]. intros H. apply IH in H as [H|(now & H)].
  - destruct (ident_eq_dec k (to_ident s0)); [|now left]. injection H as ->. right. exists z. now left.
  - right. exists now. now right.
Qed.
Lemma adds_app a b : adds (a ++ b) = adds a ++ adds b.
Proof. unfold adds. apply flat_map_app. Qed.

Lemma connect_origin hash t fixed ns os t0 i v1 v2 es k h h1 h2 sid ty mac a :
  consistent t -> lives fixed ns os -> Forall real ns -> Forall built fixed -> Forall (looks_at (moment hash t os)) es ->
  connection t0 i v1 v2 es = (k, h) -> bytes_received h -> h = h1 ++ XMgr (OOpen sid ty mac a) :: h2 ->
  (id_gateway i = true \/ loopback (sa_ip a)) /\
  ((exists id s, stored t id = Some s /\ s_addr s = Some a) \/
   (exists s, In s fixed /\ s_addr s = Some a) \/
   exists n d, In n ns /\ answered n d a).
Proof.
  intros K L Rn Bf Fe H Hb Eh. destruct (lives_adds _ _ _ L Rn Bf) as (B & C). split.
  - destruct (open_origin _ _ _ _ _ _ _ _ _ _ _ _ _ H Eh Hb) as (_ & _ & _ & _ & _ & _ & _ & _ & _ & _ & _ & _ & _ & G). exact G.
  - destruct (connect_newest _ _ _ _ _ _ _ _ _ _ _ _ _ _ _ _ K B Fe H Hb Eh) as (h0 & e & m & id & svc & os1 & os2 & now & s & _ & _ & Eo & _ & _ & Hl & Ha & _).
    apply last_in in Hl as [Hl|(z & Hl)]; [left; eauto|]. right.
    assert (Hin : In (z, s) (adds os)) by (rewrite Eo, adds_app; apply in_or_app; now left).
    destruct (C _ _ Hin) as [Hf|(n & r & Hn & Er & Hs)]; [left; eauto|]. right.
    rewrite Forall_forall in Rn. destruct (result_answered n r (Rn _ Hn) Er s a Hs Ha) as (d & D). eauto.
Qed.

(** Where no frames of strangers are heard, the address is in the network of a device. *)
Lemma answered_local n d a : no_strangers n -> answered n d a ->
  exists name ip, In (name, d) (n_devices n) /\ sa_ip a = V4 ip /\ N.land ip (dv_mask d) = network d.
Proof.
  intros NS (name & A & I & T & hosts & mac & ip & port & J & _ & S & -> & P & _). exists name, ip. split; [exact J|]. split; [reflexivity|].
  destruct (sw_tcp _ _ _ _ _ _ _ S) as (flt & Q & sent & _ & _ & _ & ->). destruct P as (f & Hf & X).
  unfold syn_ack_from in X. destruct X as (E1 & _ & _ & _ & _ & _ & _ & E8 & _). rewrite <- E8. exact (NS name d flt sent f J Hf E1).
Qed.

Lemma connect_local hash t fixed ns os t0 i v1 v2 es k h h1 h2 sid ty mac a :
  consistent t -> lives fixed ns os -> Forall real ns -> Forall no_strangers ns -> Forall built fixed -> Forall (looks_at (moment hash t os)) es ->
  connection t0 i v1 v2 es = (k, h) -> bytes_received h -> h = h1 ++ XMgr (OOpen sid ty mac a) :: h2 ->
  (exists id s, stored t id = Some s /\ s_addr s = Some a) \/
  (exists s, In s fixed /\ s_addr s = Some a) \/
  exists n name d ip, In n ns /\ In (name, d) (n_devices n) /\ sa_ip a = V4 ip /\ N.land ip (dv_mask d) = network d.
Proof.
  intros K L Rn Nn Bf Fe H Hb Eh. destruct (connect_origin _ _ _ _ _ _ _ _ _ _ _ _ _ _ _ _ _ _ K L Rn Bf Fe H Hb Eh) as (_ & [G|[G|(n & d & Hn & D)]]); [now left|right; now left|].
  right. right. rewrite Forall_forall in Nn. destruct (answered_local n d a (Nn _ Hn) D) as (name & ip & J & Ha & X). exists n, name, d, ip. auto.
Qed.
