(** C130, C131: a whole scan of the local networks, from captured frames to the report. *)
From Coq Require Import String NArith List Bool.
From Verif.Model Require Import Bytes Text Mac Service Control Http Sdp Discovery Raw Scan.
From Verif.Spec Require Import RawSpec DiscoverySpec ScanSpec.
From Verif.Proofs Require Import ScanFrames ScanPf ScanWhole ScanCases.
Import ListNotations.
Local Open Scope N_scope.
Local Open Scope list_scope.

(** ** C130 Everything in the report of a scan was heard *)

(** An open port of the report was announced by a SYN-ACK to the port of the scan, and all hosts whose ports were probed were
    heard before. *)
Theorem C130_ports_partial : forall air, obeys air ->
  forall lossy lc uc describe get_header is_rtsp rtsp_paths mjpeg_paths whitelist devices,
  (forall name d, In (name, d) devices -> allowed whitelist name -> netted d) ->
  forall r, whole_scan false air lossy lc uc describe get_header is_rtsp rtsp_paths mjpeg_paths whitelist devices = Gives r ->
  forall mac i p, has_port r (mac, i) p -> exists name d A I T hosts ip,
    In (name, d) devices /\ allowed whitelist name /\ scans air name d A I T hosts /\ i = V4 ip /\ port_heard d T mac ip p /\
    (forall m a, In (m, a) hosts -> arp_heard d A m a \/ echo_heard d I m a).
Proof. exact ports_heard. Qed.
Print Assumptions C130_ports_partial.
(** A host of the report was heard in one of the three scans. *)
Theorem C130_hosts_partial : forall air, obeys air ->
  forall lossy lc uc describe get_header is_rtsp rtsp_paths mjpeg_paths whitelist devices,
  (forall name d, In (name, d) devices -> allowed whitelist name -> netted d) ->
  forall r, whole_scan false air lossy lc uc describe get_header is_rtsp rtsp_paths mjpeg_paths whitelist devices = Gives r ->
  forall mac i, known r (mac, i) -> exists name d A I T hosts ip,
    In (name, d) devices /\ allowed whitelist name /\ scans air name d A I T hosts /\ i = V4 ip /\
    (arp_heard d A mac ip \/ echo_heard d I mac ip \/ exists p, port_heard d T mac ip p).
Proof. exact hosts_heard. Qed.
Print Assumptions C130_hosts_partial.
(** A service of the report has the addresses of such a SYN-ACK, and something at its address spoke RTSP or HTTP. *)
Theorem C130_services_partial : forall air, obeys air ->
  forall lossy lc uc describe get_header is_rtsp rtsp_paths mjpeg_paths whitelist devices,
  (forall name d, In (name, d) devices -> allowed whitelist name -> netted d) ->
  forall r, whole_scan false air lossy lc uc describe get_header is_rtsp rtsp_paths mjpeg_paths whitelist devices = Gives r ->
  forall i v, service_at r i = Some v -> exists name d A I T hosts mac ip port,
    In (name, d) devices /\ allowed whitelist name /\ scans air name d A I T hosts /\
    s_mac v = Some mac /\ s_addr v = Some {| sa_ip := V4 ip; sa_port := port |} /\ port_heard d T mac ip port /\
    (is_rtsp {| sa_ip := V4 ip; sa_port := port |} = true \/ get_header {| sa_ip := V4 ip; sa_port := port |} (lit "/") <> None).
Proof. exact services_heard. Qed.
Print Assumptions C130_services_partial.
Example C130_nonvacuous : obeys own_air /\ (forall wl name d, In (name, d) ex_devices -> allowed wl name -> netted d) /\
  exists r, ex_scan own_air = Gives r /\ has_port r (cam, V4 local_ip) 554 /\ has_flag r (cam, V4 local_ip) 0 /\
  exists i v, service_at r i = Some v /\ s_addr v = Some {| sa_ip := V4 local_ip; sa_port := 554 |}.
Proof. exact (conj own_obeys (conj ex_all_netted own_report)). Qed.
(** The networks are not checked: one forged SYN-ACK makes 8.8.8.8:554 a service of the local network 192.168.1.0/30, although
    nobody in that network answers to anything. *)
Theorem C130_local_refuted : exists air d r i v ip port, obeys air /\ netted d /\
  (forall name flt sent f, In f (frames (cp_rounds (air name flt sent))) -> ip_src f = ip /\ is_ip f) /\
  whole_scan false air (fun x => x) (fun x => x) (fun x => x) (fun _ _ => None) (fun _ _ => None) (fun _ => true) [] [] [] [(lit "eth0", d)] = Gives r /\
  service_at r i = Some v /\ s_addr v = Some {| sa_ip := V4 ip; sa_port := port |} /\ N.land ip (dv_mask d) <> network d.
Proof.
  destruct forged_report as (r & E & _ & i & v & S & A). exists forged_air, ex_dev, r, i, v, foreign_ip, 554.
  unfold ex_scan, ex_devices, ex_name in E. split; [exact forged_obeys|]. split; [exact ex_netted|]. split; [exact forged_silent|]. split; [exact E|]. split; [exact S|]. split; [exact A|]. vm_compute. discriminate.
Qed.
Print Assumptions C130_local_refuted.

(** ** C131 Every device that answers in time is in the report *)

(** Where the capture library works, all answers that come in time are in the report, and the ports of all hosts found are
    probed ([scans]). *)
Theorem C131_answers_partial : forall air, obeys air ->
  forall lossy lc uc describe get_header is_rtsp rtsp_paths mjpeg_paths whitelist devices,
  (forall name d, In (name, d) devices -> allowed whitelist name -> netted d) ->
  forall r, whole_scan false air lossy lc uc describe get_header is_rtsp rtsp_paths mjpeg_paths whitelist devices = Gives r ->
  forall name d, In (name, d) devices -> allowed whitelist name -> working air name -> exists A I T hosts, scans air name d A I T hosts /\
    (forall f, in_time A f -> whole_arp f -> has_flag r (num f 22 6, V4 (num f 28 4)) 0 /\ In (num f 22 6, num f 28 4) hosts) /\
    (forall f, in_time I f -> whole_ip f -> N.land (ip_src f) (dv_mask d) = network d -> has_flag r (eth_src f, V4 (ip_src f)) 1 /\ In (eth_src f, ip_src f) hosts) /\
    (forall f, in_time T f -> whole_tcp f -> has_port r (eth_src f, V4 (ip_src f)) (port_from f)) /\
    NoDup hosts /\ (forall mac ip, In (mac, ip) hosts -> known r (mac, V4 ip)).
Proof. exact answers_found. Qed.
Print Assumptions C131_answers_partial.
(** A scan that does not end has a listener that got nothing to read, not even a timeout, after 20 seconds; a scan that panics
    has read a bad frame; and a scan never fails. *)
Theorem C131_ends_partial : forall air, obeys air ->
  forall lossy lc uc describe get_header is_rtsp rtsp_paths mjpeg_paths whitelist devices,
  (forall name d, In (name, d) devices -> allowed whitelist name -> netted d) ->
  match whole_scan false air lossy lc uc describe get_header is_rtsp rtsp_paths mjpeg_paths whitelist devices with
  | Waits => exists name d c, In (name, d) devices /\ allowed whitelist name /\ listener air name d c /\ within_limit c
  | Crashes => exists name d c f, In (name, d) devices /\ allowed whitelist name /\ listener air name d c /\ In f (frames (cp_rounds c)) /\ bad_frame f
  | Fails => False
  | Gives _ => True
  end.
Proof.
  intros air OB lossy lc uc describe get_header is_rtsp rp mp wl devices NT.
  pose proof (whole_cases air OB lossy lc uc describe get_header is_rtsp rp mp wl devices NT) as W.
  destruct (whole_scan false air lossy lc uc describe get_header is_rtsp rp mp wl devices); (exact W || exact Logic.I).
Qed.
Print Assumptions C131_ends_partial.
Example C131_nonvacuous : obeys own_air /\ working own_air ex_name /\ (forall name flt sent, ~ within_limit (own_air name flt sent)) /\
  (exists r, ex_scan own_air = Gives r) /\
  own_air ex_name (arp_filter ex_dev) [] = cap [arp_says cam local_ip] /\ own_air ex_name (tcp_filter ex_dev) [] = cap [syn_says cam local_ip 554] /\
  in_time (cap [arp_says cam local_ip]) (arp_says cam local_ip) /\ whole_arp (arp_says cam local_ip) /\
  in_time (cap [syn_says cam local_ip 554]) (syn_says cam local_ip 554) /\ whole_tcp (syn_says cam local_ip 554).
Proof.
  destruct own_report as (r & E & _). split; [exact own_obeys|]. split; [apply ex_working|]. split; [apply ex_late|]. split; [now exists r|]. split; [exact eq_refl|]. split; [exact eq_refl|]. exact own_in_time.
Qed.
(** One ARP frame with addresses of other sizes ends the scan: no device is reported. *)
Theorem C131_panic_refuted : exists air d f, obeys air /\ netted d /\ odd_arp f /\
  (forall name, working air (lit "eth0") /\ In f (frames (cp_rounds (air name (arp_filter d) [])))) /\
  whole_scan false air (fun x => x) (fun x => x) (fun x => x) (fun _ _ => None) (fun _ _ => None) (fun _ => true) [] [] [] [(lit "eth0", d)] = Crashes.
Proof.
  destruct odd_crash as [E O]. unfold ex_scan, ex_devices, ex_name in E. exists odd_air, ex_dev, odd_frame. split; [exact odd_obeys|]. split; [exact ex_netted|]. split; [exact O|]. split; [|exact E].
  intros name. split; [exact (ex_working [odd_frame] [])|]. vm_compute. now left.
Qed.
Print Assumptions C131_panic_refuted.
