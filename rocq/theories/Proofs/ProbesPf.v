(** The probes of a scan in time: how long they take, and that they find what the model without times finds. *)
From Coq Require Import String NArith List Bool Lia ZArith ZifyBool ZifyNat ZifyN.
From Verif.Model Require Import Bytes Service Control Http Sdp Discovery Probes.
From Verif.Spec Require Import DiscoverySpec ProbesSpec.
From Verif.Proofs Require Import DiscMaps DiscPick DiscReport.
Import ListNotations.
Local Open Scope N_scope.

Lemma send_time {A} now (r : reply A) : now <= fst (send now r) <= now + 2000.
Proof. unfold send, REQUEST_TIMEOUT. destruct r as [[t x]|]; [destruct (t <=? 2000) eqn:E|]; cbn [fst]; lia. Qed.
Lemma send_cut {A} now (r : reply A) : snd (send now r) = cut r.
Proof. unfold send, cut, REQUEST_TIMEOUT. destruct r as [[t x]|]; [|reflexivity]. destruct (t <=? 2000) eqn:E; destruct (2000 <? t) eqn:F; cbn [snd]; reflexivity || lia. Qed.

Lemma wasted_send {A} (code : A -> N) now r : wasted code r -> exists x, send now r = (now + 2000, x) /\ (x = None \/ exists y, x = Some y /\ code y = 404).
Proof.
  unfold wasted, send, REQUEST_TIMEOUT. destruct r as [[t x]|]; [|intros _; exists None; auto]. intros [H|(-> & y & -> & C)].
  - exists None. destruct (N.leb_spec t 2000); [lia|auto].
  - exists (Some y). split; [reflexivity|]. right. now exists y.
Qed.

Lemma max_ge l : forall now, now <= fold_left N.max l now.
Proof. induction l as [|x l IH]; intros now; cbn [fold_left]; [lia|]. specialize (IH (N.max now x)). lia. Qed.
Lemma max_le l b : forall now, now <= b -> (forall x, In x l -> x <= b) -> fold_left N.max l now <= b.
Proof. induction l as [|x l IH]; intros now A B; cbn [fold_left]; [exact A|]. apply IH; [|intros y I; apply B; now right]. specialize (B x (or_introl eq_refl)). lia. Qed.
Lemma max_in l x : forall now, In x l -> x <= fold_left N.max l now.
Proof. induction l as [|y l IH]; intros now I; [contradiction|]. cbn [fold_left]. destruct I as [->|I]; [pose proof (max_ge l (N.max now x)); lia|now apply IH]. Qed.
Lemma min_range l lo hi : forall x, lo <= x <= hi -> (forall y, In y l -> lo <= y <= hi) -> lo <= fold_left N.min l x <= hi.
Proof. induction l as [|y l IH]; intros x A B; cbn [fold_left]; [exact A|]. apply IH; [|intros z I; apply B; now right]. specialize (B y (or_introl eq_refl)). lia. Qed.

Lemma join_time {A} now hi (l : list (N * result A)) : now <= hi -> (forall x, In x l -> now <= fst x <= hi) -> now <= fst (join_all now l) <= hi.
Proof.
  intros L H. unfold join_all. cbn [fst]. destruct (filter failed l) as [|x r] eqn:E.
  - split; [apply max_ge|]. apply max_le; [exact L|]. intros y I. apply in_map_iff in I. destruct I as (z & <- & I). apply H, I.
  - assert (Q : forall y, In y (x :: r) -> now <= fst y <= hi) by (intros y I; rewrite <- E in I; apply filter_In in I; apply H, I).
    apply min_range; [apply Q; now left|]. intros y I. apply in_map_iff in I. destruct I as (z & <- & I). apply Q. now right.
Qed.
Lemma join_fine {A B} now (f : B -> N * A) l : join_all now (map (fun c => fine (f c)) l) = (fold_left N.max (map (fun c => fst (f c)) l) now, ROk (map (fun c => snd (f c)) l)).
Proof.
  unfold join_all. assert (E : filter failed (map (fun c => fine (f c)) l) = []) by (induction l as [|c l IH]; [reflexivity|exact IH]). rewrite E.
  rewrite !map_map. cbn [fine fst snd]. f_equal. induction l as [|c l IH]; [reflexivity|]. cbn [map all_ok]. rewrite IH; [reflexivity|]. exact E.
Qed.

Section Times.
  Variable ovf : bool.
  Variables lossy lc uc : bytes -> bytes.
  Variable describe : N -> saddr -> bytes -> reply (rheader * bytes).
  Variable get_header : N -> saddr -> bytes -> reply rheader.
  Variable options : N -> saddr -> reply unit.
  Let loop_at := rtsp_loop_at ovf lossy lc uc describe.
  Let path_at := mjpeg_path_at lc get_header.
  Let probes := probes_at ovf lossy lc uc describe get_header options.

  Lemma loop_time mac a paths : forall now res, now <= fst (loop_at now mac a paths res) <= now + 2000 * nlen paths.
  Proof.
    induction paths as [|p paths IH]; intros now res; unfold loop_at, nlen in *; cbn [rtsp_loop_at length]; [cbn [fst]; lia|].
    pose proof (send_time now (describe now a p)) as T. destruct (send now (describe now a p)) as [t x]. cbn [fst] in T.
    destruct (get_rtsp_stream ovf lossy lc uc (fun _ _ => x) mac a p) as [[v|]| |]; try (cbn [fst]; lia).
    - pose proof (IH t v). destruct (s_type v); cbn [fst]; lia.
    - specialize (IH t res). lia.
  Qed.
  Lemma path_time mac a paths : forall now, now <= fst (path_at now mac a paths) <= now + 2000 * nlen paths.
  Proof.
    induction paths as [|p paths IH]; intros now; unfold path_at, nlen in *; cbn [mjpeg_path_at length]; [cbn [fst]; lia|].
    pose proof (send_time now (get_header now a p)) as T. destruct (send now (get_header now a p)) as [t x]. cbn [fst] in T.
    destruct (get_mjpeg_stream lc (fun _ _ => x) mac a p); [cbn [fst]; lia|]. specialize (IH t). lia.
  Qed.
  Lemma filter_time now predicate l : (forall a, now <= fst (predicate a) <= now + 2000) -> now <= fst (filter_services_at now predicate l) <= now + 2000.
  Proof.
    intros H. unfold filter_services_at. cbn [fst]. apply join_time; [lia|]. intros x I. apply in_map_iff in I. destruct I as (c & <- & _). apply H.
  Qed.
  Lemma rtsp_services_time now l : now <= fst (rtsp_services_at options now l) <= now + 2000.
  Proof. apply filter_time. intros a. destruct (candidate RTSP_PORTS a); [apply send_time|cbn [fst]; lia]. Qed.
  Lemma http_services_time now l : now <= fst (http_services_at get_header now l) <= now + 2000.
  Proof. apply filter_time. intros a. destruct (candidate HTTP_PORTS a); [apply send_time|cbn [fst]; lia]. Qed.
  Lemma rtsp_streams_time now paths l : now <= fst (rtsp_streams_at ovf lossy lc uc describe now paths l) <= now + 2000 * nlen paths.
  Proof. apply join_time; [lia|]. intros x I. apply in_map_iff in I. destruct I as (c & <- & _). apply loop_time. Qed.
  Lemma mjpeg_streams_time now paths l : now <= fst (mjpeg_streams_at lc get_header now paths l) <= now + 2000 * nlen paths.
  Proof. apply join_time; [lia|]. intros x I. apply in_map_iff in I. destruct I as (c & <- & _). apply path_time. Qed.

  Theorem probes_bounded now rp mp report : now <= fst (probes now rp mp report) <= now + 2000 * (2 + nlen rp + nlen mp).
  Proof.
    unfold probes, probes_at. pose proof (rtsp_services_time now (socket_addrs report)) as T1. destruct (rtsp_services_at options now (socket_addrs report)) as [t1 rtsp]. cbn [fst] in T1. cbv zeta.
    pose proof (rtsp_streams_time t1 rp (filter_duplicit rtsp (get_port_priorities RTSP_PORTS))) as T2. destruct (rtsp_streams_at _ _ _ _ _ t1 rp _) as [t2 streams]. cbn [fst] in T2.
    destruct streams as [streams| |]; try (cbn [fst]; lia).
    pose proof (http_services_time t2 (socket_addrs report)) as T3. destruct (http_services_at get_header t2 (socket_addrs report)) as [t3 http]. cbn [fst] in T3.
    pose proof (mjpeg_streams_time t3 mp (filter_duplicit http (get_port_priorities HTTP_PORTS))) as T4. destruct (mjpeg_streams_at _ _ t3 mp _) as [t4 mjpeg]. cbn [fst] in *. lia.
  Qed.

  (** ** Steady devices *)
  Hypothesis SD : steady describe.
  Hypothesis SG : steady get_header.
  Hypothesis SO : steady options.
  Let describe' := fun a p => cut (describe 0 a p).
  Let get_header' := fun a p => cut (get_header 0 a p).
  Let is_rtsp' := fun a => some (cut (options 0 a)).
  Lemma stream_at_eq now mac a p : get_rtsp_stream ovf lossy lc uc (fun _ _ => snd (send now (describe now a p))) mac a p = get_rtsp_stream ovf lossy lc uc describe' mac a p.
  Proof. unfold get_rtsp_stream, get_rtsp_stream_type. rewrite send_cut. unfold describe'. now rewrite (SD now a). Qed.
  Lemma mjpeg_at_eq now mac a p : get_mjpeg_stream lc (fun _ _ => snd (send now (get_header now a p))) mac a p = get_mjpeg_stream lc get_header' mac a p.
  Proof. unfold get_mjpeg_stream. rewrite send_cut. unfold get_header'. now rewrite (SG now a). Qed.
  Lemma loop_eq mac a paths : forall now res, snd (loop_at now mac a paths res) = rtsp_loop ovf lossy lc uc describe' mac a paths res.
  Proof.
    induction paths as [|p paths IH]; intros now res; unfold loop_at in *; cbn [rtsp_loop_at rtsp_loop]; [reflexivity|].
    pose proof (stream_at_eq now mac a p) as E. destruct (send now (describe now a p)) as [t x]. cbn [snd] in E. rewrite E.
    destruct (get_rtsp_stream ovf lossy lc uc describe' mac a p) as [[v|]| |]; try reflexivity; [|apply IH]. destruct (s_type v); try apply IH; reflexivity.
  Qed.
  Lemma path_eq mac a paths : forall now, snd (path_at now mac a paths) = find_mjpeg_path lc get_header' paths mac a.
  Proof.
    induction paths as [|p paths IH]; intros now; unfold path_at in *; cbn [mjpeg_path_at find_mjpeg_path]; [reflexivity|].
    pose proof (mjpeg_at_eq now mac a p) as E. destruct (send now (get_header now a p)) as [t x]. cbn [snd] in E. rewrite E.
    destruct (get_mjpeg_stream lc get_header' mac a p); [reflexivity|apply IH].
  Qed.
  Lemma streams_eq now paths l : snd (rtsp_streams_at ovf lossy lc uc describe now paths l) = find_rtsp_streams ovf lossy lc uc describe' paths l.
  Proof.
    unfold rtsp_streams_at, join_all. cbn [snd]. rewrite map_map. induction l as [|[mac a] l IH]; [reflexivity|]. cbn [map all_ok find_rtsp_streams fst snd].
    unfold find_rtsp_stream. pose proof (loop_eq mac a paths now (svc_unknown_rtsp mac a)) as E. unfold loop_at in E. rewrite E. destruct (rtsp_loop _ _ _ _ _ _ _ _ _); try reflexivity. now rewrite IH.
  Qed.
  Lemma rtsp_services_eq now l : snd (rtsp_services_at options now l) = find_rtsp_services is_rtsp' l.
  Proof.
    unfold rtsp_services_at, filter_services_at, find_rtsp_services. cbn [snd]. apply filter_ext. intros c. destruct (candidate RTSP_PORTS (snd c)); [|reflexivity].
    unfold answered. cbn [snd]. rewrite send_cut. unfold is_rtsp'. rewrite (SO now). destruct (cut (options 0 (snd c))); reflexivity.
  Qed.
  Lemma http_services_eq now l : snd (http_services_at get_header now l) = find_http_services get_header' l.
  Proof.
    unfold http_services_at, filter_services_at, find_http_services. cbn [snd]. apply filter_ext. intros c. destruct (candidate HTTP_PORTS (snd c)); [|reflexivity].
    unfold answered, is_http. cbn [snd]. rewrite send_cut. unfold get_header'. now rewrite (SG now).
  Qed.
  Theorem probes_same now rp mp wl devices : snd (probes now rp mp (find_open_ports wl devices)) = scan_network ovf lossy lc uc describe' get_header' is_rtsp' rp mp wl devices.
  Proof.
    unfold probes, probes_at, scan_network. cbv zeta. set (report := find_open_ports wl devices). unfold rtsp_chosen, http_chosen.
    pose proof (rtsp_services_eq now (socket_addrs report)) as E1. destruct (rtsp_services_at options now (socket_addrs report)) as [t1 rtsp]. cbn [snd] in E1. rewrite <- E1.
    pose proof (streams_eq t1 rp (filter_duplicit rtsp (get_port_priorities RTSP_PORTS))) as E2. destruct (rtsp_streams_at _ _ _ _ _ t1 rp _) as [t2 streams]. cbn [snd] in E2. rewrite <- E2.
    destruct streams as [streams| |]; try reflexivity.
    pose proof (http_services_eq t2 (socket_addrs report)) as E3. destruct (http_services_at get_header t2 (socket_addrs report)) as [t3 http]. cbn [snd] in E3. rewrite <- E3.
    unfold mjpeg_streams_at. rewrite join_fine. cbn [snd]. do 2 f_equal.
    f_equal. unfold find_mjpeg_streams. induction (filter_duplicit http (get_port_priorities HTTP_PORTS)) as [|c l IH]; [reflexivity|]. cbn [map flat_map]. rewrite IH.
    pose proof (path_eq (fst c) (snd c) mp t3) as E. unfold path_at in E. now rewrite E.
  Qed.
End Times.

(** ** A device that takes all the time it can *)
Section Tarpit.
  Variables lossy lc uc : bytes -> bytes.
  Variable describe : N -> saddr -> bytes -> reply (rheader * bytes).
  Variable get_header : N -> saddr -> bytes -> reply rheader.
  Variable options : N -> saddr -> reply unit.
  Variable i : ip.
  Hypothesis TP : tarpit describe get_header options i.
  Let probes := probes_at false lossy lc uc describe get_header options.

  Lemma tarpit_loop mac a paths : sa_ip a = i -> forall now res, rtsp_loop_at false lossy lc uc describe now mac a paths res = (now + 2000 * nlen paths, ROk res).
  Proof.
    intros I. induction paths as [|p paths IH]; intros now res; unfold nlen in *; cbn [rtsp_loop_at length]; [f_equal; lia|].
    destruct (wasted_send _ now _ (tp_describe _ _ _ _ TP now a p I)) as (x & E & W). rewrite E. destruct W as [->|((h & b) & -> & C)]; [unfold get_rtsp_stream, get_rtsp_stream_type; cbv iota; rewrite IH; f_equal; lia|]. cbn [fst] in C.
    unfold get_rtsp_stream, get_rtsp_stream_type. destruct (is_hipcam lc h && _ && _); [rewrite IH; f_equal; lia|].
    unfold rtsp_stream_type. rewrite C. change (404 =? 200) with false. change (404 =? 401) with false. change (404 =? 404) with true. cbv iota. rewrite IH. f_equal. lia.
  Qed.
  Lemma tarpit_path mac a paths : sa_ip a = i -> forall now, mjpeg_path_at lc get_header now mac a paths = (now + 2000 * nlen paths, None).
  Proof.
    intros I. induction paths as [|p paths IH]; intros now; unfold nlen in *; cbn [mjpeg_path_at length]; [f_equal; lia|].
    destruct (wasted_send _ now _ (tp_get _ _ _ _ TP now a p I)) as (x & E & W). rewrite E. destruct W as [->|(h & -> & C)]; [unfold get_mjpeg_stream; cbv iota; rewrite IH; f_equal; lia|].
    unfold get_mjpeg_stream, mjpeg_stream_type. rewrite C. change (404 =? 200) with false. change (404 =? 401) with false. change (404 =? 404) with true. cbv iota. rewrite IH. f_equal. lia.
  Qed.
  Lemma loop_total mac a paths : forall now res, exists t v, rtsp_loop_at false lossy lc uc describe now mac a paths res = (t, ROk v).
  Proof.
    induction paths as [|p paths IH]; intros now res; cbn [rtsp_loop_at]; [eauto|]. destruct (send now (describe now a p)) as [t x]. unfold get_rtsp_stream.
    destruct (type_total lossy lc uc (fun _ _ => x) a p) as (ty & ->). destruct ty; cbn [s_type svc_rtsp svc_locked_rtsp svc_unsupported_rtsp]; eauto.
  Qed.
  Lemma streams_late now paths l mac a : In (mac, a) l -> sa_ip a = i -> now + 2000 * nlen paths <= fst (rtsp_streams_at false lossy lc uc describe now paths l).
  Proof.
    intros I E. unfold rtsp_streams_at, join_all. cbn [fst].
    assert (F : filter failed (map (fun c => rtsp_loop_at false lossy lc uc describe now (fst c) (snd c) paths (svc_unknown_rtsp (fst c) (snd c))) l) = []).
    { clear I. induction l as [|c l IH]; [reflexivity|]. cbn [map filter]. destruct (loop_total (fst c) (snd c) paths now (svc_unknown_rtsp (fst c) (snd c))) as (t & v & ->). exact IH. }
    rewrite F. apply max_in. rewrite map_map. apply in_map_iff. exists (mac, a). split; [|exact I]. cbn [fst snd]. now rewrite tarpit_loop.
  Qed.
  Lemma streams_fine now paths l : exists t vs, rtsp_streams_at false lossy lc uc describe now paths l = (t, ROk vs).
  Proof.
    unfold rtsp_streams_at, join_all. eexists. assert (F : exists vs, all_ok (map snd (map (fun c => rtsp_loop_at false lossy lc uc describe now (fst c) (snd c) paths (svc_unknown_rtsp (fst c) (snd c))) l)) = ROk vs).
    { induction l as [|c l (vs & IH)]; [exists []; reflexivity|]. cbn [map all_ok]. destruct (loop_total (fst c) (snd c) paths now (svc_unknown_rtsp (fst c) (snd c))) as (t & v & ->). cbn [snd]. rewrite IH. eauto. }
    destruct F as (vs & ->). exists vs. reflexivity.
  Qed.
  Lemma filter_late now predicate l mac a : In (mac, a) l -> predicate a = (now + 2000, true) ->
    now + 2000 <= fst (filter_services_at now predicate l) /\ In (mac, a) (snd (filter_services_at now predicate l)).
  Proof.
    intros I E. unfold filter_services_at. cbn [fst snd]. rewrite (join_fine now (fun c : N * saddr => predicate (snd c))). cbn [fst]. split.
    - apply max_in. apply in_map_iff. exists (mac, a). split; [cbn [snd]; now rewrite E|exact I].
    - apply filter_In. split; [exact I|]. cbn [snd]. now rewrite E.
  Qed.
  Theorem tarpit_late now rp mp report mac p mac' p' : scan_ok report -> has_port report (mac, i) p -> In p RTSP_PORTS -> has_port report (mac', i) p' -> In p' HTTP_PORTS ->
    fst (probes now rp mp report) = now + 2000 * (2 + nlen rp + nlen mp).
  Proof.
    intros OK HP RP HP' RP'. apply N.le_antisymm; [apply probes_bounded|]. unfold probes, probes_at. cbv zeta.
    set (a := {| sa_ip := i; sa_port := p |}). set (b := {| sa_ip := i; sa_port := p' |}).
    assert (Ia : In (mac, a) (socket_addrs report)) by (apply socket_addrs_in; assumption).
    assert (Ib : In (mac', b) (socket_addrs report)) by (apply socket_addrs_in; assumption).
    assert (L1 : now + 2000 <= fst (rtsp_services_at options now (socket_addrs report)) /\ In (mac, a) (snd (rtsp_services_at options now (socket_addrs report)))).
    { apply filter_late; [exact Ia|]. assert (C : candidate RTSP_PORTS a = true) by (apply candidate_iff; exact RP). rewrite C. rewrite (tp_options _ _ _ _ TP now a eq_refl). reflexivity. }
    destruct (rtsp_services_at options now (socket_addrs report)) as [t1 rtsp]. cbn [fst snd] in L1. destruct L1 as [T1 I1].
    destruct (filter_best RTSP_PORTS ports_nodup_rtsp _ _ I1) as ([m1 c1] & Ic & _ & Ec & _). cbn [snd] in Ec.
    pose proof (streams_late t1 rp _ m1 c1 Ic Ec) as T2. destruct (streams_fine t1 rp (filter_duplicit rtsp (get_port_priorities RTSP_PORTS))) as (t2 & vs & E2). rewrite E2 in *. cbn [fst] in T2.
    assert (L3 : t2 + 2000 <= fst (http_services_at get_header t2 (socket_addrs report)) /\ In (mac', b) (snd (http_services_at get_header t2 (socket_addrs report)))).
    { apply filter_late; [exact Ib|]. assert (C : candidate HTTP_PORTS b = true) by (apply candidate_iff; exact RP'). rewrite C.
      destruct (tp_root _ _ _ _ TP t2 b eq_refl) as (h & E). change (lit "/") with [47]. rewrite E. reflexivity. }
    destruct (http_services_at get_header t2 (socket_addrs report)) as [t3 http]. cbn [fst snd] in L3. destruct L3 as [T3 I3].
    destruct (filter_best HTTP_PORTS ports_nodup_http _ _ I3) as ([m3 c3] & Ic3 & _ & Ec3 & _). cbn [snd] in Ec3.
    assert (T4 : t3 + 2000 * nlen mp <= fst (mjpeg_streams_at lc get_header t3 mp (filter_duplicit http (get_port_priorities HTTP_PORTS)))).
    { unfold mjpeg_streams_at. rewrite join_fine. cbn [fst]. apply max_in. apply in_map_iff. exists (m3, c3). split; [|exact Ic3]. cbn [fst snd]. now rewrite tarpit_path. }
    destruct (mjpeg_streams_at lc get_header t3 mp _) as [t4 mjpeg]. cbn [fst] in *. unfold nlen in *. lia.
  Qed.
End Tarpit.
