(** Properties C152 and C153: what the log says about the networks that are scanned, and what a failing scan loses.

    [find_open_ports_log whitelist devices]: the report of the port scans of the devices, and the records they leave in the log. *)
From Coq Require Import String NArith List Bool.
From Verif.Model Require Import Bytes Alist Service Control Http Sdp Discovery Logger Journal DiscLog.
From Verif.Spec Require Import DiscoverySpec DiscLogSpec.
From Verif.Proofs Require Import DiscLogPf.
Import ListNotations.
Local Open Scope N_scope.

(** C152: for each device that may be scanned, in order, the log has one record for each scan that was begun and a warning with
    the error of the one that failed; for the other devices nothing. *)
Theorem C152_networks :
  forall (whitelist : list bytes) (devices : list (bytes * netres)),
    networks_told whitelist devices (snd (find_open_ports_log whitelist devices)).
Proof. exact networks_log. Qed.
Print Assumptions C152_networks.

(** No network is missing from the report without a warning, and there is no other warning. *)
Theorem C152_missing :
  forall (whitelist : list bytes) (devices : list (bytes * netres)), let l := snd (find_open_ports_log whitelist devices) in
    (forall name n, In (name, n) devices -> allowed whitelist name ->
      (exists r, open_ports_in_network (results n) = Some r) \/ (exists err, fails n err /\ In (unable name err) l)) /\
    (forall r, In r l -> j_sev r <> DEBUG -> exists name n err,
      In (name, n) devices /\ allowed whitelist name /\ open_ports_in_network (results n) = None /\ fails n err /\ r = unable name err).
Proof. exact missing_log. Qed.
Print Assumptions C152_missing.

(** The log of a whole scan: the networks, then the four searches in order; after a panic (C56) only the first two. The scan is the
    one of Model/Discovery.v. *)
Theorem C152_scan :
  forall (ovf : bool) (lossy lc uc : bytes -> bytes) (describe : saddr -> bytes -> option (rheader * bytes))
         (get_header : saddr -> bytes -> option rheader) (is_rtsp : saddr -> bool) (rtsp_paths mjpeg_paths whitelist : list bytes)
         (devices : list (bytes * netres)),
    let r := scan_network ovf lossy lc uc describe get_header is_rtsp rtsp_paths mjpeg_paths whitelist (plain_devices devices) in
    scan_network_log ovf lossy lc uc describe get_header is_rtsp rtsp_paths mjpeg_paths whitelist devices =
    (r, snd (find_open_ports_log whitelist devices) ++ match r with ROk _ => looked_for | _ => firstn 2 looked_for end).
Proof. exact scan_log. Qed.
Print Assumptions C152_scan.

Definition ex_devices : list (bytes * netres) :=
  [(lit "eth0"%string, {| ne_arp := inl [(7, 10)]; ne_icmp := inl []; ne_tcp := fun _ => inr (lit "no buffer"%string) |});
   (lit "lo"%string, {| ne_arp := inr (lit "x"%string); ne_icmp := inl []; ne_tcp := fun _ => inl [] |});
   (lit "eth1"%string, {| ne_arp := inl []; ne_icmp := inl [(8, 11)]; ne_tcp := fun _ => inl [(8, 11, 81)] |})].
Example C152_case :
  map j_text (snd (find_open_ports_log [lit "eth1"%string; lit "eth0"%string] ex_devices)) =
  [lit "running ARP scan in local network on interface eth0"%string;
   lit "running ICMP echo scan in local network on interface eth0"%string;
   lit "running TCP port scan in local network on interface eth0"%string;
   lit "unable to find open ports in local network on interface eth0: pcap error: no buffer"%string;
   lit "running ARP scan in local network on interface eth1"%string;
   lit "running ICMP echo scan in local network on interface eth1"%string;
   lit "running TCP port scan in local network on interface eth1"%string] /\
  map fst (sc_hosts (fst (find_open_ports_log [lit "eth1"%string; lit "eth0"%string] ex_devices))) = [(8, V4 11)].
Proof. split; vm_compute; reflexivity. Qed.

(** C153, that whatever was found is reported, does not hold: a failing port scan loses the hosts that the ARP and the ICMP scan have
    found. *)
Theorem C153_lost_refuted :
  exists (devices : list (bytes * netscan)) (name : bytes) (n : netscan) (mac a : N) (arp : list (N * N)),
    In (name, n) devices /\ ns_arp n = Some arp /\ In (mac, a) arp /\ ~ known (find_open_ports [] devices) (mac, V4 a).
Proof. exact lost_hosts. Qed.
Print Assumptions C153_lost_refuted.

(** What holds: a network that fails takes nothing away from the others. *)
Theorem C153_others_partial :
  forall (whitelist : list bytes) (devices : list (bytes * netscan)) (name : bytes) (n : netscan) (r : scan),
    In (name, n) devices -> allowed whitelist name -> open_ports_in_network n = Some r ->
    (forall k, known r k -> known (find_open_ports whitelist devices) k) /\
    (forall k p, has_port r k p -> has_port (find_open_ports whitelist devices) k p).
Proof. exact others_in. Qed.
Print Assumptions C153_others_partial.

(** The report is the same as without the network that fails. *)
Theorem C153_omitted_partial :
  forall (whitelist : list bytes) (a b : list (bytes * netscan)) (name : bytes) (n : netscan),
    open_ports_in_network n = None -> find_open_ports whitelist (a ++ (name, n) :: b) = find_open_ports whitelist (a ++ b).
Proof. exact failed_omitted. Qed.
Print Assumptions C153_omitted_partial.

Example C153_case :
  let ds := plain_devices ex_devices in
  map (fun d => match open_ports_in_network (snd d) with Some r => Some (map fst (sc_hosts r)) | None => None end) ds
    = [None; None; Some [(8, V4 11)]] /\
  map fst (sc_hosts (find_open_ports [] ds)) = [(8, V4 11)].
Proof. split; vm_compute; reflexivity. Qed.
