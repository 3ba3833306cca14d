(** C132, C133: how long the probes of a scan take, and that devices do not disturb each other. *)
From Coq Require Import String NArith List Bool Lia.
From Verif.Model Require Import Bytes Service Control Http Sdp Discovery Probes.
From Verif.Spec Require Import DiscoverySpec ProbesSpec.
From Verif.Proofs Require Import DiscReport SdpFinal ProbesPf AlonePf ProbesCases.
Import ListNotations.
Local Open Scope N_scope.
Local Open Scope list_scope.

(** ** C132 Probing ends in time *)

(** Two seconds for each path and for each of the two rounds of first requests, whatever the devices do and however many
    there are *)
Theorem C132_bounded : forall ovf lossy lc uc describe get_header options now rtsp_paths mjpeg_paths report,
  now <= fst (probes_at ovf lossy lc uc describe get_header options now rtsp_paths mjpeg_paths report) <= now + 2000 * (2 + nlen rtsp_paths + nlen mjpeg_paths).
Proof. exact probes_bounded. Qed.
Print Assumptions C132_bounded.
(** One device makes any scan take that long. *)
Theorem C132_tight : forall lossy lc uc describe get_header options i, tarpit describe get_header options i ->
  forall now rtsp_paths mjpeg_paths report mac p mac' p', scan_ok report ->
  has_port report (mac, i) p -> In p [554; 88; 81; 555; 7447; 8554; 7070; 10554; 80; 6667] -> has_port report (mac', i) p' -> In p' [80; 81; 8080; 8081; 8090] ->
  fst (probes_at false lossy lc uc describe get_header options now rtsp_paths mjpeg_paths report) = now + 2000 * (2 + nlen rtsp_paths + nlen mjpeg_paths).
Proof. exact tarpit_late. Qed.
Print Assumptions C132_tight.
(** Apart from the time it takes, a scan finds what the model without times (C76-C79) finds: a response that takes more than two
    seconds is none. *)
Theorem C132_same : forall ovf lossy lc uc describe get_header options, steady describe -> steady get_header -> steady options ->
  forall now rtsp_paths mjpeg_paths whitelist devices,
  snd (probes_at ovf lossy lc uc describe get_header options now rtsp_paths mjpeg_paths (find_open_ports whitelist devices)) =
  scan_network ovf lossy lc uc (fun a p => cut (describe 0 a p)) (fun a p => cut (get_header 0 a p)) (fun a => some (cut (options 0 a))) rtsp_paths mjpeg_paths whitelist devices.
Proof. exact probes_same. Qed.
Print Assumptions C132_same.
Example C132_nonvacuous : tarpit pair_describe pair_get pair_options ip11 /\ scan_ok pair_report /\ has_port pair_report (7, ip11) 554 /\ has_port pair_report (7, ip11) 80 /\
  steady pair_describe /\ steady pair_get /\ steady pair_options /\
  fst (probes_at false same same same pair_describe pair_get pair_options 0 [lit "/a"; lit "/b"; lit "/c"] [lit "/d"] pair_report) = 12000.
Proof.
  split; [exact pair_tarpit|]. split; [exact pair_ok|]. destruct pair_ports as [A B]. split; [exact A|]. split; [exact B|].
  split; [intros now a; reflexivity|]. split; [intros now a; reflexivity|]. split; [intros now a; reflexivity|exact pair_times].
Qed.

(** ** C133 Devices do not disturb each other *)

(** What is reported for a hardware address depends only on the answers of the IP addresses it was heard with. *)
Theorem C133_alone_partial : forall lossy lc uc d1 d2 g1 g2 o1 o2 rtsp_paths mjpeg_paths mac whitelist devices r1 r2,
  scan_network false lossy lc uc d1 g1 o1 rtsp_paths mjpeg_paths whitelist devices = ROk r1 ->
  scan_network false lossy lc uc d2 g2 o2 rtsp_paths mjpeg_paths whitelist devices = ROk r2 ->
  (forall a p, has_port r1 (mac, sa_ip a) p -> o1 a = o2 a /\ (forall q, d1 a q = d2 a q) /\ (forall q, g1 a q = g2 a q)) ->
  forall k, i_mac k = Some mac -> service_at r1 k = service_at r2 k.
Proof. exact alone. Qed.
Print Assumptions C133_alone_partial.
(** The hosts and open ports do not depend on the probes at all. *)
Theorem C133_hosts : forall lossy lc uc d1 d2 g1 g2 o1 o2 rp mp rp' mp' whitelist devices r1 r2,
  scan_network false lossy lc uc d1 g1 o1 rp mp whitelist devices = ROk r1 -> scan_network false lossy lc uc d2 g2 o2 rp' mp' whitelist devices = ROk r2 ->
  sc_hosts r1 = sc_hosts r2.
Proof. exact hosts_same. Qed.
Print Assumptions C133_hosts.
Example C133_nonvacuous : exists r1 r2 o1 o2, o1 (at_ ip11 554) <> o2 (at_ ip11 554) /\
  scan_network false same same same (fun _ _ => None) (fun _ _ => None) o1 [] [] [] [([], pair_net)] = ROk r1 /\
  scan_network false same same same (fun _ _ => None) (fun _ _ => None) o2 [] [] [] [([], pair_net)] = ROk r2 /\ sc_services r1 <> sc_services r2 /\
  (forall a p, has_port r1 (6, sa_ip a) p -> o1 a = o2 a) /\ exists k v, i_mac k = Some 6 /\ service_at r1 k = Some v.
Proof.
  eexists. eexists. exists (ip_is ip10), (fun _ => true). split; [discriminate|]. split; [vm_compute; reflexivity|]. split; [vm_compute; reflexivity|]. split; [discriminate|]. split.
  - intros a p (h & H & _). unfold ip_is. destruct (ip_eq_dec (sa_ip a) ip10) as [E|NE]; [reflexivity|]. exfalso. cbn [sc_hosts mget] in H.
    destruct (hkey_dec (6, sa_ip a) (6, V4 10)) as [Q|_]; [injection Q as Q; contradiction|]. destruct (hkey_dec (6, sa_ip a) (7, V4 11)) as [Q|_]; [discriminate Q|discriminate H].
  - exists {| i_type := TCP; i_mac := Some 6; i_port := Some 554; i_path := None |}. eexists. split; [reflexivity|]. vm_compute. reflexivity.
Qed.
(** Two devices behind one router have one hardware address: an answer of the second one takes the first one out of the report. *)
Theorem C133_shared_refuted : exists o1 o2 r1 r2,
  (forall a, sa_ip a = ip10 -> o1 a = o2 a) /\
  scan_network false same same same (fun _ _ => None) (fun _ _ => None) o1 [] [] [] [([], two_net)] = ROk r1 /\
  scan_network false same same same (fun _ _ => None) (fun _ _ => None) o2 [] [] [] [([], two_net)] = ROk r2 /\
  (exists k v, service_at r1 k = Some v /\ s_addr v = Some (at_ ip10 554)) /\
  (forall k v, service_at r2 k = Some v -> s_addr v <> Some (at_ ip10 554)).
Proof. exact shared. Qed.
Print Assumptions C133_shared_refuted.
(** In development builds one description ends the scan: nothing is reported for any device. *)
Theorem C133_panic_refuted : exists d1 d2 g o rp devices r,
  (forall a q, sa_ip a <> ip11 -> d1 a q = d2 a q) /\
  scan_network true same same same d1 g o rp [] [] devices = ROk r /\
  (exists k v, service_at r k = Some v /\ s_addr v = Some (at_ ip10 554)) /\
  scan_network true same same same d2 g o rp [] [] devices = RPanic.
Proof. exact panics_all. Qed.
Print Assumptions C133_panic_refuted.
