(** C136: a device that answers the frames of a scan is found. Times are nanoseconds. *)
From Coq Require Import String NArith List Bool.
From Verif.Model Require Import Bytes Service Control Http Sdp Discovery Raw Scan.
From Verif.Spec Require Import RawSpec DiscoverySpec ScanSpec PaceSpec.
From Verif.Proofs Require Import ScanWhole ScanCases PacePf PaceCases.
Import ListNotations.
Local Open Scope N_scope.
Local Open Scope list_scope.

(** If a frame leaves every [pace] and the answers take [delay], and all of this is over within two seconds, then every device
    of the network that answers ARP is found, and every port of a camera it answers at. *)
Theorem C136_prompt_partial : forall air, obeys air -> clocks air ->
  forall lossy lc uc describe get_header is_rtsp rtsp_paths mjpeg_paths whitelist devices,
  (forall name d, In (name, d) devices -> allowed whitelist name -> netted d) ->
  forall r, whole_scan false air lossy lc uc describe get_header is_rtsp rtsp_paths mjpeg_paths whitelist devices = Gives r ->
  forall name d pace delay, In (name, d) devices -> allowed whitelist name -> working air name ->
  (broadcast d - network d - 1) * pace + delay <= 2000000000 ->
  exists hosts,
    (forall mac ip, network d < ip < broadcast d -> answers_arp air name d pace delay mac ip ->
       has_flag r (mac, V4 ip) 0 /\ In (mac, ip) hosts) /\
    nlen hosts <= nlen (hosts_of r) /\
    (nlen hosts * 13 * pace + delay <= 2000000000 ->
     forall mac ip port, In (mac, ip) hosts -> In port camera_ports -> answers_port air name d pace delay mac ip port -> has_port r (mac, V4 ip) port).
Proof. exact prompt_found. Qed.
Print Assumptions C136_prompt_partial.

(** A camera at 192.168.1.2 in a network of two addresses *)
Example C136_case : obeys near_air /\ clocks near_air /\ working near_air ex_name /\ netted ex_dev /\
  network ex_dev < local_ip < broadcast ex_dev /\ (broadcast ex_dev - network ex_dev - 1) * 10000000 + 1000000 <= 2000000000 /\
  answers_arp near_air ex_name ex_dev 10000000 1000000 cam local_ip /\ answers_port near_air ex_name ex_dev 10000000 1000000 cam local_ip 554 /\
  exists r, ex_scan near_air = Gives r /\ has_flag r (cam, V4 local_ip) 0 /\ has_port r (cam, V4 local_ip) 554.
Proof. exact near_case. Qed.

(** In general it is not: the two seconds without a frame count from the start, also while requests are sent. With 10 ms for a
    frame in a network of 254 addresses the listener leaves before the last ones are asked for. The camera at the last address
    answers every request within one millisecond and is not found. *)
Theorem C136_late_refuted : exists air name d mac ip r,
  obeys air /\ clocks air /\ working air name /\ netted d /\ network d < ip < broadcast d /\ broadcast d - network d - 1 = 254 /\
  answers_arp air name d 10000000 1000000 mac ip /\
  whole_scan false air (fun x => x) (fun x => x) (fun x => x) (fun _ _ => None) (fun _ _ => None) (fun _ => true) [] [] [] [(name, d)] = Gives r /\
  sc_hosts r = [] /\ sc_services r = [].
Proof. exact late_case. Qed.
Print Assumptions C136_late_refuted.
