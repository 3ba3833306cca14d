(** C63, C64, C65, C79: results of scans, services by port, probing of paths and the report. *)
From Coq Require Import String NArith List Bool Lia.
From Verif.Model Require Import Bytes Service Control Http Sdp Discovery.
From Verif.Spec Require Import DiscoverySpec.
From Verif.Proofs Require Import SdpFinal DiscMaps DiscPick DiscReport.
Import ListNotations.
Local Open Scope N_scope.

(** ** C63 Scan results are sets *)

(** Every result that can be built is well-formed. *)
Theorem C63_invariant : scan_ok scan_new /\
  (forall mac i f s, scan_ok s -> scan_ok (add_host mac i f s)) /\ (forall mac i p s, scan_ok s -> scan_ok (add_port mac i p s)) /\
  (forall v s, scan_ok s -> scan_ok (add_service v s)) /\ (forall s o, scan_ok s -> scan_ok o -> scan_ok (merge s o)).
Proof. exact (conj scan_new_ok (conj add_host_ok (conj add_port_ok (conj add_service_ok merge_ok)))). Qed.
Print Assumptions C63_invariant.
(** Merging is the union. *)
Theorem C63_union : forall s o, scan_ok o ->
  (forall k, host_flags (merge s o) k = or_flags (host_flags s k) (host_flags o k)) /\
  (forall k p, has_port (merge s o) k p <-> has_port s k p \/ has_port o k p) /\
  (forall i, service_at (merge s o) i = match service_at o i with Some v => Some v | None => service_at s i end).
Proof. exact (fun s o O => conj (fun k => merge_flags s o k O) (conj (fun k p => merge_ports s o k p O) (fun i => merge_services s o i O))). Qed.
Print Assumptions C63_union.
Theorem C63_idempotent : forall s o, scan_ok s -> scan_ok o -> same_scan (merge (merge s o) o) (merge s o) /\ same_scan (merge s s) s.
Proof. exact merge_again. Qed.
Print Assumptions C63_idempotent.
Theorem C63_order : forall s o, scan_ok s -> scan_ok o ->
  (forall k, host_flags (merge s o) k = host_flags (merge o s) k) /\ (forall k p, has_port (merge s o) k p <-> has_port (merge o s) k p).
Proof. exact merge_hosts_swap. Qed.
Print Assumptions C63_order.
(** The other operations add one thing and nothing else. *)
Theorem C63_additions :
  (forall mac i f s k, host_flags (add_host mac i f s) k = if hkey_dec k (mac, i) then or_flags (host_flags s k) (Some f) else host_flags s k) /\
  (forall mac i f s k p, has_port (add_host mac i f s) k p <-> has_port s k p) /\
  (forall mac i q s k, host_flags (add_port mac i q s) k = if hkey_dec k (mac, i) then or_flags (host_flags s k) (Some 0) else host_flags s k) /\
  (forall mac i q s k p, has_port (add_port mac i q s) k p <-> has_port s k p \/ (k = (mac, i) /\ p = q)) /\
  (forall v s i, service_at (add_service v s) i = if ident_eq_dec i (to_ident v) then Some v else service_at s i).
Proof. exact (conj add_host_flags (conj add_host_ports (conj add_port_flags (conj add_port_ports add_service_at)))). Qed.
Print Assumptions C63_additions.
(** The iterator over socket addresses ends and gives each open port of each host once. *)
Theorem C63_iterate : forall s, scan_ok s ->
  sock_collect (S (length (flat_map hr_ports (hosts_of s)))) (sock_new s) = Some (socket_addrs s) /\
  NoDup (socket_addrs s) /\ forall mac a, In (mac, a) (socket_addrs s) <-> has_port s (mac, sa_ip a) (sa_port a).
Proof.
  exact (fun s O => conj (eq_trans (proj1 (socket_addrs_eq s)) (f_equal Some (eq_sym (proj2 (socket_addrs_eq s))))) (conj (socket_addrs_nodup s O) (socket_addrs_in s O))).
Qed.
Print Assumptions C63_iterate.

Definition ex_scan_a : scan := add_port 7 (V4 10) 554 (add_host 8 (V4 11) 1 (add_host 7 (V4 10) 1 scan_new)).
Definition ex_scan_b : scan := add_port 9 (V6 3) 80 (add_port 7 (V4 10) 80 (add_port 7 (V4 10) 554 (add_host 7 (V4 10) 2 scan_new))).
Example C63_case : socket_addrs (merge ex_scan_a ex_scan_b) =
  [(7, {| sa_ip := V4 10; sa_port := 554 |}); (7, {| sa_ip := V4 10; sa_port := 80 |}); (9, {| sa_ip := V6 3; sa_port := 80 |})] /\
  host_flags (merge ex_scan_a ex_scan_b) (7, V4 10) = Some 3.
Proof. vm_compute. auto. Qed.
Example C63_case_ok : scan_ok ex_scan_a /\ scan_ok ex_scan_b.
Proof. split; repeat (apply add_port_ok || apply add_host_ok || apply scan_new_ok). Qed.

(** ** C64 One service for each address *)

(** Those kept are the first of the best rank for their address; each address of a candidate has exactly one. *)
Theorem C64_chosen : forall ports, NoDup ports -> forall l,
  (forall c, In c (filter_duplicit l (get_port_priorities ports)) <-> chosen ports l c) /\
  NoDup (map (fun c => sa_ip (snd c)) (filter_duplicit l (get_port_priorities ports))) /\
  (forall x, In x l -> exists c, In c (filter_duplicit l (get_port_priorities ports)) /\ In c l /\ sa_ip (snd c) = sa_ip (snd x) /\
     (rank ports (sa_port (snd c)) <= rank ports (sa_port (snd x)))%nat).
Proof. exact (fun ports ND l => conj (filter_iff ports ND l) (conj (filter_one ports ND l) (filter_best ports ND l))). Qed.
Print Assumptions C64_chosen.
Theorem C64_ports : RTSP_PORTS = [554; 88; 81; 555; 7447; 8554; 7070; 10554; 80; 6667] /\ HTTP_PORTS = [80; 81; 8080; 8081; 8090] /\
  NoDup RTSP_PORTS /\ NoDup HTTP_PORTS.
Proof. exact (conj eq_refl (conj eq_refl (conj ports_nodup_rtsp ports_nodup_http))). Qed.
Print Assumptions C64_ports.
Theorem C64_priority : forall ports p, NoDup ports -> priority (get_port_priorities ports) p = N.of_nat (length ports - rank ports p).
Proof. exact priority_rank. Qed.
Print Assumptions C64_priority.
Example C64_case : filter_duplicit
  [(1, {| sa_ip := V4 5; sa_port := 80 |}); (2, {| sa_ip := V4 6; sa_port := 7447 |}); (1, {| sa_ip := V4 5; sa_port := 554 |}); (3, {| sa_ip := V4 5; sa_port := 554 |}); (1, {| sa_ip := V4 5; sa_port := 9 |})]
  (get_port_priorities RTSP_PORTS) = [(1, {| sa_ip := V4 5; sa_port := 554 |}); (2, {| sa_ip := V4 6; sa_port := 7447 |})].
Proof. vm_compute. reflexivity. Qed.

(** ** C65 Probing of paths *)

(** The first path that is playable or locked decides, whatever the paths before it gave. *)
Theorem C65_first : forall ovf lossy lc uc describe mac a pre p post t,
  (forall q, In q pre -> idle ovf lossy lc uc describe a q) -> get_rtsp_stream_type ovf lossy lc uc describe a p = ROk t -> decisive t ->
  find_rtsp_stream ovf lossy lc uc describe (pre ++ p :: post) mac a = ROk (stream_at mac a p t).
Proof. exact probe_first. Qed.
Print Assumptions C65_first.
(** Without such a path: the last unsupported path, or an unknown service. *)
Theorem C65_rest : forall ovf lossy lc uc describe mac a paths, (forall q, In q paths -> idle ovf lossy lc uc describe a q) ->
  exists v, find_rtsp_stream ovf lossy lc uc describe paths mac a = ROk v /\ settled ovf lossy lc uc describe mac a paths (svc_unknown_rtsp mac a) v.
Proof. exact probe_none. Qed.
Print Assumptions C65_rest.
(** One of the two cases holds, and there is always a result (release builds). *)
Theorem C65_cases : forall lossy lc uc describe a paths,
  (forall q, In q paths -> idle false lossy lc uc describe a q) \/
  exists pre p post t, paths = pre ++ p :: post /\ (forall q, In q pre -> idle false lossy lc uc describe a q) /\ get_rtsp_stream_type false lossy lc uc describe a p = ROk t /\ decisive t.
Proof. exact paths_cases. Qed.
Print Assumptions C65_cases.
Theorem C65_total : forall lossy lc uc describe paths mac a, exists v, find_rtsp_stream false lossy lc uc describe paths mac a = ROk v /\ s_mac v = Some mac /\ s_addr v = Some a
  /\ In (s_type v) [RTSP; LockedRTSP; UnsupportedRTSP; UnknownRTSP].
Proof. exact probe_total. Qed.
Print Assumptions C65_total.
(** When a path is playable, unsupported or locked *)
Theorem C65_types : forall lossy lc uc describe a q,
  (get_rtsp_stream_type false lossy lc uc describe a q = ROk SSupported <->
     exists h body, describe a q = Some (h, body) /\ ~ ignored lc h q /\ rh_code h = 200 /\ is_supported_rtsp false lossy lc uc body = ROk true) /\
  (get_rtsp_stream_type false lossy lc uc describe a q = ROk SUnsupported <->
     exists h body, describe a q = Some (h, body) /\ ~ ignored lc h q /\ rh_code h = 200 /\ is_supported_rtsp false lossy lc uc body = ROk false) /\
  (get_rtsp_stream_type false lossy lc uc describe a q = ROk SLocked <-> exists h body, describe a q = Some (h, body) /\ ~ ignored lc h q /\ rh_code h = 401).
Proof. exact type_cases. Qed.
Print Assumptions C65_types.
(** MJPEG: the first path that is playable or locked, or nothing *)
Theorem C65_mjpeg : forall lc get_header mac a paths,
  (forall v, find_mjpeg_path lc get_header paths mac a = Some v <->
    exists pre p post, paths = pre ++ p :: post /\ (forall q, In q pre -> get_mjpeg_stream lc get_header mac a q = None) /\ get_mjpeg_stream lc get_header mac a p = Some v) /\
  (find_mjpeg_path lc get_header paths mac a = None <-> forall q, In q paths -> get_mjpeg_stream lc get_header mac a q = None).
Proof. exact (fun lc get_header mac a paths => conj (mjpeg_first lc get_header mac a paths) (mjpeg_none lc get_header mac a paths)). Qed.
Print Assumptions C65_mjpeg.

(** When an MJPEG path is playable or locked *)
Theorem C65_mjpeg_types : forall lc get_header mac a q v, lc [] = [] ->
  (get_mjpeg_stream lc get_header mac a q = Some v <->
   exists h, get_header a q = Some h /\ ((rh_code h = 200 /\ says_mjpeg lc h /\ v = svc_mjpeg mac a q) \/ (rh_code h = 401 /\ v = svc_locked_mjpeg mac a None))).
Proof. exact mjpeg_types. Qed.
Print Assumptions C65_mjpeg_types.

Definition ex_response (code : N) : rheader := {| rh_protocol := lit "RTSP"; rh_version := lit "1.0"; rh_code := code; rh_line := lit "x"; rh_fields := fields_new |}.
Definition ex_addr : saddr := {| sa_ip := V4 5; sa_port := 554 |}.
Definition ex_describe (a : saddr) (p : bytes) : option (rheader * bytes) :=
  if beq p (lit "/dead") then None
  else if beq p (lit "/none") then Some (ex_response 404, [])
  else if beq p (lit "/audio") then Some (ex_response 200, lit "v=0")
  else if beq p (lit "/secret") then Some (ex_response 401, [])
  else Some (ex_response 200, example_sdp).
Example C65_case :
  find_rtsp_stream false same lowers upper ex_describe [lit "/dead"; lit "/none"; lit "/audio"; lit "/live"; lit "/secret"] 1 ex_addr = ROk (svc_rtsp 1 ex_addr (lit "/live")) /\
  find_rtsp_stream false same lowers upper ex_describe [lit "/dead"; lit "/secret"; lit "/live"] 1 ex_addr = ROk (svc_locked_rtsp 1 ex_addr None) /\
  find_rtsp_stream false same lowers upper ex_describe [lit "/audio"; lit "/none"] 1 ex_addr = ROk (svc_unsupported_rtsp 1 ex_addr (lit "/audio")) /\
  find_rtsp_stream false same lowers upper ex_describe [lit "/dead"] 1 ex_addr = ROk (svc_unknown_rtsp 1 ex_addr).
Proof. vm_compute. auto. Qed.

(** ** C79 The report of a scan *)

(** Open ports, hosts and flags are those found in the networks allowed, unless a scan of the network failed. *)
Theorem C79_networks : forall whitelist devices, let s := find_open_ports whitelist devices in
  scan_ok s /\ sc_services s = [] /\
  (forall k p, has_port s k p <-> exists r, scanned whitelist devices r /\ has_port r k p) /\
  (forall k b, has_flag s k b <-> exists r, scanned whitelist devices r /\ has_flag r k b) /\
  (forall k, known s k <-> exists r, scanned whitelist devices r /\ known r k).
Proof. exact open_ports_spec. Qed.
Print Assumptions C79_networks.
Theorem C79_network : forall n s, open_ports_in_network n = Some s -> scan_ok s /\ sc_services s = [] /\
  exists arp icmp hosts tcp, net_result n arp icmp hosts tcp /\
    (forall mac i p, has_port s (mac, i) p <-> exists a, i = V4 a /\ In (mac, a, p) tcp) /\
    (forall mac i, has_flag s (mac, i) 0 <-> exists a, i = V4 a /\ In (mac, a) arp) /\
    (forall mac i, has_flag s (mac, i) 1 <-> exists a, i = V4 a /\ In (mac, a) icmp) /\
    (forall mac i, known s (mac, i) <-> exists a, i = V4 a /\ (In (mac, a) hosts \/ exists p, In (mac, a, p) tcp)).
Proof. exact network_spec. Qed.
Print Assumptions C79_network.
(** Every service of the report is a service found at an open port: nothing is made up. *)
Theorem C79_sound : forall lossy lc uc describe get_header is_rtsp rtsp_paths mjpeg_paths whitelist devices r,
  scan_network false lossy lc uc describe get_header is_rtsp rtsp_paths mjpeg_paths whitelist devices = ROk r -> let s := find_open_ports whitelist devices in
  forall i v, service_at r i = Some v -> exists mac a, s_mac v = Some mac /\ s_addr v = Some a /\ to_ident v = i /\ has_port s (mac, sa_ip a) (sa_port a) /\
    ((rtsp_family (s_type v) /\ is_rtsp a = true /\ find_rtsp_stream false lossy lc uc describe rtsp_paths mac a = ROk v)
     \/ (s_type v = TCP /\ is_rtsp a = true)
     \/ ((s_type v = MJPEG \/ s_type v = LockedMJPEG) /\ get_header a (lit "/"%string) <> None /\ find_mjpeg_path lc get_header mjpeg_paths mac a = Some v)
     \/ (s_type v = HTTP /\ get_header a (lit "/"%string) <> None)).
Proof. exact report_sound. Qed.
Print Assumptions C79_sound.
(** A scan always gives a report (release builds), with the hosts of the port scan unchanged; of services with the same identity the last
    one is kept. *)
Theorem C79_report : forall lossy lc uc describe get_header is_rtsp rtsp_paths mjpeg_paths whitelist devices, let s := find_open_ports whitelist devices in
  exists r streams, scan_network false lossy lc uc describe get_header is_rtsp rtsp_paths mjpeg_paths whitelist devices = ROk r /\ scan_ok r /\ sc_hosts r = sc_hosts s /\
    Forall2 (fun c v => find_rtsp_stream false lossy lc uc describe rtsp_paths (fst c) (snd c) = ROk v) (rtsp_chosen is_rtsp s) streams /\
    forall i v, service_at r i = Some v <-> exists a b,
      all_services streams (rtsp_chosen is_rtsp s) (find_mjpeg_streams lc get_header mjpeg_paths (http_chosen get_header s)) (http_chosen get_header s) = a ++ v :: b /\
      to_ident v = i /\ forall w, In w b -> to_ident w <> i.
Proof. exact report_spec. Qed.
Print Assumptions C79_report.
(** Each address with an open port at which a server answers is represented, by the port that comes first. *)
Theorem C79_candidates : forall s, scan_ok s ->
  (forall is_rtsp mac a, In (mac, a) (rtsp_chosen is_rtsp s) -> has_port s (mac, sa_ip a) (sa_port a) /\ In (sa_port a) RTSP_PORTS /\ is_rtsp a = true) /\
  (forall is_rtsp mac a, has_port s (mac, sa_ip a) (sa_port a) -> In (sa_port a) RTSP_PORTS -> is_rtsp a = true ->
     exists c, In c (rtsp_chosen is_rtsp s) /\ sa_ip (snd c) = sa_ip a /\ (rank RTSP_PORTS (sa_port (snd c)) <= rank RTSP_PORTS (sa_port a))%nat) /\
  (forall get_header mac a, In (mac, a) (http_chosen get_header s) -> has_port s (mac, sa_ip a) (sa_port a) /\ In (sa_port a) HTTP_PORTS /\ get_header a (lit "/"%string) <> None) /\
  (forall get_header mac a, has_port s (mac, sa_ip a) (sa_port a) -> In (sa_port a) HTTP_PORTS -> get_header a (lit "/"%string) <> None ->
     exists c, In c (http_chosen get_header s) /\ sa_ip (snd c) = sa_ip a /\ (rank HTTP_PORTS (sa_port (snd c)) <= rank HTTP_PORTS (sa_port a))%nat).
Proof.
  exact (fun s O => conj (fun is_rtsp => rtsp_sound is_rtsp s O) (conj (fun is_rtsp => rtsp_complete is_rtsp s O) (conj (fun g => http_sound g s O) (fun g => http_complete g s O)))).
Qed.
Print Assumptions C79_candidates.
(** Nothing is lost where each hardware address has one IP address. *)
Theorem C79_complete_partial : forall lossy lc uc describe get_header is_rtsp rtsp_paths mjpeg_paths whitelist devices, let s := find_open_ports whitelist devices in
  (forall mac i j, known s (mac, i) -> known s (mac, j) -> i = j) ->
  exists r, scan_network false lossy lc uc describe get_header is_rtsp rtsp_paths mjpeg_paths whitelist devices = ROk r /\
  (forall mac a, In (mac, a) (rtsp_chosen is_rtsp s) ->
     service_at r (to_ident (svc_tcp mac a)) = Some (svc_tcp mac a) /\
     exists v, find_rtsp_stream false lossy lc uc describe rtsp_paths mac a = ROk v /\ service_at r (to_ident v) = Some v) /\
  (forall mac a, In (mac, a) (http_chosen get_header s) ->
     service_at r (to_ident (svc_http mac a)) = Some (svc_http mac a) /\
     forall v, find_mjpeg_path lc get_header mjpeg_paths mac a = Some v -> service_at r (to_ident v) = Some v).
Proof. exact report_complete. Qed.
Print Assumptions C79_complete_partial.

Definition ex_net (second : N) : netscan :=
  {| ns_arp := Some [(7, 10); (second, 11)]; ns_icmp := Some [(7, 10)]; ns_tcp := fun _ => Some [(7, 10, 554); (second, 11, 554); (second, 11, 80)] |}.
Definition ex_get (a : saddr) (p : bytes) : option rheader := if sa_port a =? 80 then Some (ex_response 401) else None.
Definition ex_report (second : N) : result scan :=
  scan_network false same lowers upper ex_describe ex_get (fun a => sa_port a =? 554) [lit "/live"%string] [lit "/video"%string] [lit "eth0"%string]
    [(lit "lo"%string, ex_net 3); (lit "eth0"%string, ex_net second)].
Example C79_case : match ex_report 8 with ROk r => length (services_of r) = 6%nat | _ => False end.
Proof. vm_compute. reflexivity. Qed.
Example C79_case_macs : forall mac i j, let s := find_open_ports [lit "eth0"%string] [(lit "lo"%string, ex_net 3); (lit "eth0"%string, ex_net 8)] in
  known s (mac, i) -> known s (mac, j) -> i = j.
Proof.
  intros mac i j s. subst s. unfold known, host_flags. intros A B.
  destruct (mget hkey_dec (mac, i) _) as [h|] eqn:E in A; [|now contradict A]. destruct (mget hkey_dec (mac, j) _) as [h'|] eqn:E' in B; [|now contradict B].
  apply mget_in in E, E'. vm_compute in E, E'. destruct E as [E|[E|[]]], E' as [E'|[E'|[]]]; congruence.
Qed.
(** A device with two IP addresses: only the last one found is reported. *)
Theorem C79_complete_refuted : exists lossy lc uc describe get_header is_rtsp rtsp_paths mjpeg_paths whitelist devices r c,
  scan_network false lossy lc uc describe get_header is_rtsp rtsp_paths mjpeg_paths whitelist devices = ROk r /\
  In c (rtsp_chosen is_rtsp (find_open_ports whitelist devices)) /\
  forall i v, service_at r i = Some v -> forall a, s_addr v = Some a -> sa_ip a <> sa_ip (snd c).
Proof. exact two_addresses. Qed.
Print Assumptions C79_complete_refuted.
