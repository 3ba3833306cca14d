(** What a device answers does not change what is reported for another one. *)
From Coq Require Import String NArith List Bool Lia ZArith ZifyBool ZifyNat ZifyN.
From Verif.Model Require Import Bytes Service Control Http Sdp Discovery.
From Verif.Spec Require Import DiscoverySpec.
From Verif.Proofs Require Import DiscMaps DiscPick DiscReport SdpFinal.
Import ListNotations.
Local Open Scope N_scope.

Section Keep.
  Variable K : ip -> bool.
  Let onkey (e : ip * (N * N)) := K (fst e).
  Let onip (c : N * saddr) := K (sa_ip (snd c)).
  Lemma mget_filter i acc : K i = true -> mget ip_eq_dec i (filter onkey acc) = mget ip_eq_dec i acc.
  Proof.
    intros H. induction acc as [|[k v] acc IH]; [reflexivity|]. cbn [filter]. unfold onkey at 1. cbn [fst]. destruct (K k) eqn:E; cbn [mget].
    - now rewrite IH.
    - destruct (ip_eq_dec i k) as [->|]; [congruence|exact IH].
  Qed.
  Lemma mset_filter i v acc : K i = true -> filter onkey (mset ip_eq_dec i v acc) = mset ip_eq_dec i v (filter onkey acc).
  Proof.
    intros H. induction acc as [|[k w] acc IH]; cbn [mset filter].
    - unfold onkey. cbn [fst]. now rewrite H.
    - unfold onkey at 2. cbn [fst]. destruct (ip_eq_dec i k) as [->|NE]; cbn [filter]; unfold onkey at 1; cbn [fst].
      + rewrite H. cbn [mset]. destruct (ip_eq_dec k k); congruence.
      + destruct (K k); [|exact IH]. cbn [mset]. destruct (ip_eq_dec i k); [contradiction|]. now rewrite IH.
  Qed.
  Lemma onkey_eq k v : onkey (k, v) = K k.
  Proof. reflexivity. Qed.
  Lemma mset_filtered i v acc : K i = false -> filter onkey (mset ip_eq_dec i v acc) = filter onkey acc.
  Proof.
    intros H. induction acc as [|[k w] acc IH]; cbn [mset filter]; [rewrite onkey_eq, H; reflexivity|].
    destruct (ip_eq_dec i k) as [->|NE]; cbn [filter]; rewrite !onkey_eq.
    - now rewrite H.
    - now rewrite IH.
  Qed.
  Lemma keep_filter m l : forall acc, filter onkey (fold_left (keep_better m) l acc) = fold_left (keep_better m) (filter onip l) (filter onkey acc).
  Proof.
    induction l as [|c l IH]; intros acc; [reflexivity|]. cbn [fold_left filter]. rewrite IH. unfold onip at 2. destruct (K (sa_ip (snd c))) eqn:E; cbn [fold_left]; f_equal; unfold keep_better.
    - rewrite mget_filter by exact E. destruct (mget ip_eq_dec (sa_ip (snd c)) acc) as [[m0 p0]|]; [destruct (_ <? _)|]; try reflexivity; now apply mset_filter.
    - destruct (mget ip_eq_dec (sa_ip (snd c)) acc) as [[m0 p0]|]; [destruct (_ <? _)|]; try reflexivity; now apply mset_filtered.
  Qed.
  Lemma duplicit_filter m l : filter onip (filter_duplicit l m) = filter_duplicit (filter onip l) m.
  Proof.
    unfold filter_duplicit. pose proof (keep_filter m l []) as E. cbn [filter] in E. rewrite <- E. clear E. induction (fold_left (keep_better m) l []) as [|e r IH]; [reflexivity|]. cbn [map filter].
    unfold onip at 1, onkey at 1. cbn [snd sa_ip]. destruct (K (fst e)); cbn [map]; now rewrite IH.
  Qed.
End Keep.

Lemma filter_swap {A} (f g : A -> bool) l : filter f (filter g l) = filter g (filter f l).
Proof. induction l as [|x l IH]; [reflexivity|]. cbn [filter]. destruct (g x) eqn:G, (f x) eqn:F; cbn [filter]; rewrite ?G, ?F, IH; reflexivity. Qed.
Lemma filter_map {A B} (f : A -> B) (g : B -> bool) l : filter g (map f l) = map f (filter (fun x => g (f x)) l).
Proof. induction l as [|x l IH]; [reflexivity|]. cbn [map filter]. destruct (g (f x)); cbn [map]; now rewrite IH. Qed.
Lemma filter_both {A} (f g : A -> bool) l : (forall x, In x l -> f x = true -> g x = true) -> filter f l = filter f (filter g l).
Proof.
  induction l as [|x l IH]; intros H; [reflexivity|]. cbn [filter]. rewrite IH by (intros y I; apply H; now right). destruct (g x) eqn:G; [reflexivity|].
  destruct (f x) eqn:F; [|reflexivity]. rewrite (H x (or_introl eq_refl) F) in G. discriminate.
Qed.

Section Alone.
  Variables lossy lc uc : bytes -> bytes.
  Variables (d1 d2 : saddr -> bytes -> option (rheader * bytes)) (g1 g2 : saddr -> bytes -> option rheader) (o1 o2 : saddr -> bool).
  Variables (rp mp : list bytes) (m : N).
  Definition of_mac (c : N * saddr) : bool := fst c =? m.
  Definition svc_mac (v : service) : bool := match s_mac v with Some x => x =? m | None => false end.

  Section Report.
    Variable s : scan.
    Hypothesis OK : scan_ok s.
    Hypothesis SAME : forall a p, has_port s (m, sa_ip a) p -> o1 a = o2 a /\ (forall q, d1 a q = d2 a q) /\ (forall q, g1 a q = g2 a q).
    Let near (i : ip) : bool := existsb (fun c => of_mac c && if ip_eq_dec (sa_ip (snd c)) i then true else false) (socket_addrs s).
    Let onip (c : N * saddr) := near (sa_ip (snd c)).
    Lemma near_agree a : near (sa_ip a) = true -> o1 a = o2 a /\ (forall q, d1 a q = d2 a q) /\ (forall q, g1 a q = g2 a q).
    Proof.
      intros H. apply existsb_exists in H. destruct H as ([x c] & I & E). unfold of_mac in E. cbn [fst snd] in E. apply andb_prop in E. destruct E as [E1 E2]. apply N.eqb_eq in E1. subst x.
      destruct (ip_eq_dec (sa_ip c) (sa_ip a)) as [Q|]; [|discriminate]. apply socket_addrs_in in I; [|exact OK]. rewrite Q in I. exact (SAME a _ I).
    Qed.
    Lemma near_mac c : In c (socket_addrs s) -> of_mac c = true -> onip c = true.
    Proof. intros I E. apply existsb_exists. exists c. split; [exact I|]. rewrite E. destruct (ip_eq_dec (sa_ip (snd c)) (sa_ip (snd c))); [reflexivity|congruence]. Qed.
    Lemma rtsp_near : filter onip (rtsp_chosen o1 s) = filter onip (rtsp_chosen o2 s).
    Proof.
      unfold rtsp_chosen. unfold onip. rewrite !duplicit_filter. f_equal. unfold find_rtsp_services. rewrite (filter_swap _ (fun c => if candidate RTSP_PORTS (snd c) then o1 (snd c) else false)), (filter_swap _ (fun c => if candidate RTSP_PORTS (snd c) then o2 (snd c) else false)).
      apply filter_ext_in. intros c I. apply filter_In in I. destruct I as [_ I]. destruct (near_agree _ I) as (E & _). now rewrite E.
    Qed.
    Lemma http_near : filter onip (http_chosen g1 s) = filter onip (http_chosen g2 s).
    Proof.
      unfold http_chosen. unfold onip. rewrite !duplicit_filter. f_equal. unfold find_http_services. rewrite (filter_swap _ (fun c => if candidate HTTP_PORTS (snd c) then is_http g1 (snd c) else false)), (filter_swap _ (fun c => if candidate HTTP_PORTS (snd c) then is_http g2 (snd c) else false)).
      apply filter_ext_in. intros c I. apply filter_In in I. destruct I as [_ I]. destruct (near_agree _ I) as (_ & _ & E). unfold is_http. now rewrite E.
    Qed.
    Lemma rtsp_in o c : In c (rtsp_chosen o s) -> In c (socket_addrs s).
    Proof. destruct c as [mac a]. intros I. apply rtsp_sound in I; [|exact OK]. now apply socket_addrs_in. Qed.
    Lemma http_in g c : In c (http_chosen g s) -> In c (socket_addrs s).
    Proof. destruct c as [mac a]. intros I. apply http_sound in I; [|exact OK]. now apply socket_addrs_in. Qed.
    Lemma rtsp_mac : filter of_mac (rtsp_chosen o1 s) = filter of_mac (rtsp_chosen o2 s).
    Proof. rewrite (filter_both of_mac onip (rtsp_chosen o1 s)), (filter_both of_mac onip (rtsp_chosen o2 s)), rtsp_near; [reflexivity|..]; intros c I; apply near_mac; exact (rtsp_in _ _ I). Qed.
    Lemma http_mac : filter of_mac (http_chosen g1 s) = filter of_mac (http_chosen g2 s).
    Proof. rewrite (filter_both of_mac onip (http_chosen g1 s)), (filter_both of_mac onip (http_chosen g2 s)), http_near; [reflexivity|..]; intros c I; apply near_mac; exact (http_in _ _ I). Qed.
    Lemma near_of_mac l c : (forall x, In x l -> In x (socket_addrs s)) -> In c (filter of_mac l) -> o1 (snd c) = o2 (snd c) /\ (forall q, d1 (snd c) q = d2 (snd c) q) /\ (forall q, g1 (snd c) q = g2 (snd c) q).
    Proof. intros H I. apply filter_In in I. destruct I as [I E]. apply near_agree. apply (near_mac c); [now apply H|exact E]. Qed.

    Lemma stream_same mac a : (forall q, d1 a q = d2 a q) -> find_rtsp_stream false lossy lc uc d1 rp mac a = find_rtsp_stream false lossy lc uc d2 rp mac a.
    Proof.
      intros H. unfold find_rtsp_stream. generalize (svc_unknown_rtsp mac a). induction rp as [|p r IH]; intros v; cbn [rtsp_loop]; [reflexivity|].
      unfold get_rtsp_stream, get_rtsp_stream_type. rewrite H. destruct (match d2 a p with Some _ => _ | None => _ end) as [t| |]; try reflexivity.
      destruct t; cbn [s_type svc_rtsp svc_locked_rtsp svc_unsupported_rtsp]; auto.
    Qed.
    Lemma path_same mac a : (forall q, g1 a q = g2 a q) -> find_mjpeg_path lc g1 mp mac a = find_mjpeg_path lc g2 mp mac a.
    Proof. intros H. induction mp as [|p r IH]; cbn [find_mjpeg_path]; [reflexivity|]. unfold get_mjpeg_stream. rewrite H, IH. reflexivity. Qed.
    Definition stream_of d (c : N * saddr) : service := match find_rtsp_stream false lossy lc uc d rp (fst c) (snd c) with ROk v => v | _ => svc_unknown_rtsp (fst c) (snd c) end.
    Lemma streams_map d l vs : Forall2 (fun c v => find_rtsp_stream false lossy lc uc d rp (fst c) (snd c) = ROk v) l vs -> vs = map (stream_of d) l.
    Proof. induction 1 as [|c v l vs E F IH]; [reflexivity|]. cbn [map]. unfold stream_of at 1. now rewrite E, IH. Qed.
    Lemma stream_mac d c : svc_mac (stream_of d c) = of_mac c.
    Proof. unfold stream_of, svc_mac, of_mac. destruct (probe_total lossy lc uc d rp (fst c) (snd c)) as (v & -> & -> & _). reflexivity. Qed.
    Lemma mjpeg_filter g l : filter svc_mac (find_mjpeg_streams lc g mp l) = find_mjpeg_streams lc g mp (filter of_mac l).
    Proof.
      unfold find_mjpeg_streams. induction l as [|c l IH]; [reflexivity|]. cbn [flat_map]. rewrite filter_app, IH. cbn [filter].
      assert (E : filter svc_mac (match find_mjpeg_path lc g mp (fst c) (snd c) with Some v => [v] | None => [] end) = if of_mac c then match find_mjpeg_path lc g mp (fst c) (snd c) with Some v => [v] | None => [] end else []).
      { destruct (find_mjpeg_path lc g mp (fst c) (snd c)) as [v|] eqn:Q; [|now destruct (of_mac c)]. cbn [filter]. unfold svc_mac. destruct (mjpeg_shape _ _ _ _ _ _ Q) as (-> & _). reflexivity. }
      rewrite E. destruct (of_mac c); reflexivity.
    Qed.
    Lemma services_same vs1 vs2 :
      Forall2 (fun c v => find_rtsp_stream false lossy lc uc d1 rp (fst c) (snd c) = ROk v) (rtsp_chosen o1 s) vs1 ->
      Forall2 (fun c v => find_rtsp_stream false lossy lc uc d2 rp (fst c) (snd c) = ROk v) (rtsp_chosen o2 s) vs2 ->
      filter svc_mac (all_services vs1 (rtsp_chosen o1 s) (find_mjpeg_streams lc g1 mp (http_chosen g1 s)) (http_chosen g1 s)) =
      filter svc_mac (all_services vs2 (rtsp_chosen o2 s) (find_mjpeg_streams lc g2 mp (http_chosen g2 s)) (http_chosen g2 s)).
    Proof.
      intros F1 F2. apply streams_map in F1, F2. subst vs1 vs2. unfold all_services. rewrite !filter_app. f_equal; [|f_equal; [|f_equal]].
      - rewrite !filter_map. rewrite (filter_ext _ of_mac) by (intros c; apply stream_mac). rewrite (filter_ext (fun x => svc_mac (stream_of d2 x)) of_mac) by (intros c; apply stream_mac).
        rewrite rtsp_mac. apply map_ext_in. intros c I. apply near_of_mac in I; [|exact (rtsp_in o2)]. destruct I as (_ & E & _). unfold stream_of. now rewrite (stream_same (fst c) (snd c) E).
      - rewrite !filter_map. f_equal. exact rtsp_mac.
      - rewrite !mjpeg_filter, http_mac. unfold find_mjpeg_streams. rewrite !flat_map_concat_map. f_equal. apply map_ext_in. intros c I. apply near_of_mac in I; [|exact (http_in g2)].
        destruct I as (_ & _ & E). now rewrite (path_same (fst c) (snd c) E).
      - rewrite !filter_map. f_equal. exact http_mac.
    Qed.
  End Report.

  Lemma at_filter l k : i_mac k = Some m -> forall s1 s2, service_at s1 k = service_at s2 k -> service_at (add_services l s1) k = service_at (add_services (filter svc_mac l) s2) k.
  Proof.
    intros Hk. induction l as [|v l IH]; intros s1 s2 E; [exact E|]. unfold add_services. cbn [fold_left filter]. destruct (svc_mac v) eqn:V; cbn [fold_left]; apply IH; rewrite !add_service_at.
    - now rewrite E.
    - destruct (ident_eq_dec k (to_ident v)) as [->|]; [|exact E]. cbn [to_ident i_mac] in Hk. unfold svc_mac in V. rewrite Hk, N.eqb_refl in V. discriminate.
  Qed.

  Lemma report_split d g o wl devices r : scan_network false lossy lc uc d g o rp mp wl devices = ROk r -> let s := find_open_ports wl devices in
    exists vs, Forall2 (fun c v => find_rtsp_stream false lossy lc uc d rp (fst c) (snd c) = ROk v) (rtsp_chosen o s) vs /\
    r = add_services (all_services vs (rtsp_chosen o s) (find_mjpeg_streams lc g mp (http_chosen g s)) (http_chosen g s)) s.
  Proof.
    cbv zeta. set (s := find_open_ports wl devices). destruct (streams_total lossy lc uc d rp (rtsp_chosen o s)) as (vs & E & F). intros H. exists vs. split; [exact F|].
    unfold scan_network in H. fold s in H. cbv zeta in H. rewrite E in H. injection H as <-. rewrite !add_services_map. unfold all_services. rewrite !add_services_app. now rewrite !map_id.
  Qed.

  Theorem alone wl devices r1 r2 :
    scan_network false lossy lc uc d1 g1 o1 rp mp wl devices = ROk r1 -> scan_network false lossy lc uc d2 g2 o2 rp mp wl devices = ROk r2 ->
    (forall a p, has_port r1 (m, sa_ip a) p -> o1 a = o2 a /\ (forall q, d1 a q = d2 a q) /\ (forall q, g1 a q = g2 a q)) ->
    forall k, i_mac k = Some m -> service_at r1 k = service_at r2 k.
  Proof.
    intros E1 E2 H k Hk. destruct (report_split _ _ _ _ _ _ E1) as (vs1 & F1 & R1). destruct (report_split _ _ _ _ _ _ E2) as (vs2 & F2 & R2). cbv zeta in *.
    destruct (open_ports_spec wl devices) as (OK & _). set (s := find_open_ports wl devices) in *.
    assert (H' : forall a p, has_port s (m, sa_ip a) p -> o1 a = o2 a /\ (forall q, d1 a q = d2 a q) /\ (forall q, g1 a q = g2 a q)).
    { intros a p (h & G & I). apply (H a p). exists h. split; [|exact I]. rewrite R1, add_services_hosts. exact G. }
    subst r1 r2. rewrite (at_filter _ k Hk s s eq_refl). rewrite (at_filter (all_services vs2 _ _ _) k Hk s s eq_refl). now rewrite (services_same s OK H' vs1 vs2 F1 F2).
  Qed.
End Alone.

(** The hosts and ports of a report do not depend on the answers to the probes at all. *)
Lemma hosts_same lossy lc uc d1 d2 g1 g2 o1 o2 rp mp rp' mp' wl devices r1 r2 :
  scan_network false lossy lc uc d1 g1 o1 rp mp wl devices = ROk r1 -> scan_network false lossy lc uc d2 g2 o2 rp' mp' wl devices = ROk r2 -> sc_hosts r1 = sc_hosts r2.
Proof.
  intros E1 E2. destruct (report_split _ _ _ _ _ _ _ _ _ _ _ E1) as (vs1 & _ & ->). destruct (report_split _ _ _ _ _ _ _ _ _ _ _ E2) as (vs2 & _ & ->). now rewrite !add_services_hosts.
Qed.
