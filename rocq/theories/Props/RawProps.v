(** C59, C60, C61, C62, C77, C78: raw packets and the scans made with them. *)
From Coq Require Import NArith List Bool Lia.
From Verif.Model Require Import Bytes Raw.
From Verif.Spec Require Import RawSpec.
From Verif.Proofs Require Import BytesFacts RawSums RawChecks RawRound RawLayout RawParse RawGen RawScan.
Import ListNotations.
Local Open Scope N_scope.

(** ** C59 Checksums *)

(** IPv4: every header, with any options *)
Theorem C59_ip : forall ovf h dlen b, iph_ok h -> iph_bytes ovf h dlen = ROk b -> verifies b.
Proof. exact iph_verifies. Qed.
Print Assumptions C59_ip.
Definition ex_header : iph := iph_new 3232235777 3232235778 IpTcp 64.
Example ex_header_ok : iph_ok ex_header.
Proof. apply new_header_ok; reflexivity || exact I. Qed.
Example C59_ip_nonvacuous : exists b, iph_bytes true ex_header 20 = ROk b /\ nlen b = 20.
Proof. eexists. split; [vm_compute; reflexivity|reflexivity]. Qed.

(** TCP: the segment with the pseudo header of its length *)
Theorem C59_tcp : forall ovf h p b, tcp_ok p -> iph_ok h -> 20 + nlen (tp_options p) + nlen (tp_data p) < 65536 ->
  tcp_bytes ovf h p = ROk b ->
  nlen b = 20 + nlen (tp_options p) + nlen (tp_data p) /\
  verifies (pseudo_header (ih_src h) (ih_dst h) (protocol_number (ih_proto h)) (nlen b) ++ b).
Proof. exact tcp_verifies_pseudo. Qed.
Print Assumptions C59_tcp.
Definition ex_tcp : tcp := {| tp_sport := 61234; tp_dport := 554; tp_seq := 4294967295; tp_ack := 1; tp_flags := 2; tp_wsize := 8192; tp_uptr := 7;
                              tp_options := [2; 4; 5; 180]; tp_data := [1; 2; 255] |}.
Example ex_tcp_ok : tcp_ok ex_tcp.
Proof.
  constructor; cbn; try reflexivity.
  - split; [|split; [reflexivity|discriminate]]. repeat constructor.
  - repeat constructor.
Qed.
Example C59_tcp_nonvacuous : exists b, tcp_bytes true ex_header ex_tcp = ROk b /\ nlen b = 27.
Proof. eexists. split; [vm_compute; reflexivity|reflexivity]. Qed.

(** ICMP: exactly the packets whose second word (the sequence number) is below 256 verify. *)
Theorem C59_icmp_partial : forall p, icmp_ok p -> 8 + nlen (ic_body p) < 65536 -> (verifies (icmp_bytes p) <-> ic_rest p mod 65536 < 256).
Proof. exact icmp_verifies. Qed.
Print Assumptions C59_icmp_partial.
Theorem C59_icmp_refuted : exists p, icmp_ok p /\ p = echo_request 1 256 [] /\ ~ verifies (icmp_bytes p).
Proof.
  exists (echo_request 1 256 []). assert (O : icmp_ok (echo_request 1 256 [])) by (apply echo_ok; [reflexivity|reflexivity|constructor]).
  split; [exact O|]. split; [reflexivity|]. intros V. apply (icmp_verifies _ O) in V; [|reflexivity]. vm_compute in V. discriminate.
Qed.
Print Assumptions C59_icmp_refuted.
Example C59_icmp_nonvacuous : icmp_ok (echo_request 7 255 [1; 2; 3]) /\ verifies (icmp_bytes (echo_request 7 255 [1; 2; 3])).
Proof. split; [apply echo_ok; [reflexivity|reflexivity|repeat constructor]|reflexivity]. Qed.

(** All echo requests of the ICMP scan verify. *)
Theorem C59_scan : forall d dst, exists p, pk_body (icmp_request d dst) = EIp (iph_new (dv_ip d) dst IpIcmp 64) (BIcmp p) /\ verifies (icmp_bytes p).
Proof. intros d dst. eexists. split; [reflexivity|]. exact (echo_verifies dst). Qed.
Print Assumptions C59_scan.
Example C59_scan_nonvacuous : nlen (icmp_bytes (echo_request 49320 255 [])) = 8.
Proof. reflexivity. Qed.

(** ** C60 Parsing what was built *)

(** Every packet comes back with the length filled in and without its urgent pointer. *)
Theorem C60_round_partial : forall ovf p bs, packet_ok p -> packet_bytes ovf p = ROk bs -> packet_parse bs = ROk (with_length (without_urgent p)).
Proof. exact packet_round. Qed.
Print Assumptions C60_round_partial.
(** The packets described can be built. *)
Theorem C60_total : forall ovf p, packet_ok p -> exists bs, packet_bytes ovf p = ROk bs.
Proof. exact packet_total. Qed.
Print Assumptions C60_total.
Definition ex_packet : packet := {| pk_header := {| eh_src := 1; eh_dst := 281474976710655; eh_type := 2048 |}; pk_body := EIp ex_header (BTcp ex_tcp) |}.
Example ex_packet_ok : packet_ok ex_packet.
Proof.
  split; [constructor; reflexivity|]. cbn [ex_packet pk_body pk_header eh_type]. split; [apply ex_header_ok|]. split; [|reflexivity].
  split; [reflexivity|]. split; [apply ex_tcp_ok|reflexivity].
Qed.
Theorem C60_urgent_refuted : exists ovf p bs q, packet_ok p /\ packet_bytes ovf p = ROk bs /\ packet_parse bs = ROk q /\ urgent p = 7 /\ urgent q = 0.
Proof.
  exists true, ex_packet. destruct (packet_total true ex_packet ex_packet_ok) as (bs & E). exists bs, (with_length (without_urgent ex_packet)).
  split; [exact ex_packet_ok|]. split; [exact E|]. split; [exact (packet_round _ _ _ ex_packet_ok E)|]. split; reflexivity.
Qed.
Print Assumptions C60_urgent_refuted.
(** ICMP messages, TCP segments and ARP packets on their own; ARP packets also when the frame is padded *)
Theorem C60_icmp : forall p, icmp_ok p -> icmp_parse (icmp_bytes p) = ROk p.
Proof. exact icmp_round. Qed.
Print Assumptions C60_icmp.
Theorem C60_arp : forall p rest, arp_ok p -> arp_parse (arp_bytes p ++ rest) = ROk p.
Proof. exact arp_round. Qed.
Print Assumptions C60_arp.
Example C60_arp_nonvacuous : arp_ok (arp_new ArpRequest 1 2 3 4).
Proof. constructor; reflexivity || exact I. Qed.
(** The bytes of every header are those of its RFC. *)
Theorem C60_layout_ip : forall ovf h dlen b, iph_ok h -> 20 + nlen (ih_options h) + dlen < 65536 -> iph_bytes ovf h dlen = ROk b ->
  exists c, c < 65536 /\ b = ip_layout h (20 + nlen (ih_options h) + dlen) c.
Proof. exact ip_on_wire. Qed.
Print Assumptions C60_layout_ip.
Theorem C60_layout_tcp_partial : forall ovf h p b, tcp_ok p -> 20 + nlen (tp_options p) + nlen (tp_data p) < 65536 -> tcp_bytes ovf h p = ROk b ->
  exists c, c < 65536 /\ b = tcp_layout p 0 c.
Proof. exact tcp_on_wire. Qed.
Print Assumptions C60_layout_tcp_partial.
Theorem C60_layout_icmp : forall p, icmp_ok p -> exists c, c < 65536 /\ icmp_bytes p = icmp_layout p c.
Proof. exact icmp_on_wire. Qed.
Print Assumptions C60_layout_icmp.
Theorem C60_layout_arp : forall p, arp_ok p -> arp_bytes p = arp_layout p.
Proof. exact arp_on_wire. Qed.
Print Assumptions C60_layout_arp.
Theorem C60_layout_ethernet : forall h, eth_ok h -> eth_bytes h = eth_layout h.
Proof. exact eth_on_wire. Qed.
Print Assumptions C60_layout_ethernet.
Example C60_layout_case :
  iph_bytes true ex_header 20 = ROk (ip_layout ex_header 40 63356) /\
  eth_layout {| eh_src := 1; eh_dst := 281474976710655; eh_type := 2048 |} = [255; 255; 255; 255; 255; 255; 0; 0; 0; 0; 0; 1; 8; 0] /\
  arp_bytes (arp_new ArpRequest 1 2 3 4) = arp_layout (arp_new ArpRequest 1 2 3 4).
Proof. vm_compute. auto. Qed.
(** The frames of the three scans, byte by byte *)
Theorem C60_frame_arp : forall ovf d dst, device_ok d -> dst < 2 ^ 32 -> packet_bytes ovf (arp_request d dst) = ROk (arp_query d dst).
Proof. exact arp_frame. Qed.
Print Assumptions C60_frame_arp.
Theorem C60_frame_icmp : forall ovf d dst, device_ok d -> dst < 2 ^ 32 -> exists c1 c2, c1 < 65536 /\ c2 < 65536 /\
  packet_bytes ovf (icmp_request d dst) = ROk (everyone ++ be48 (dv_mac d) ++ [8; 0] ++ plain_ip 1 28 c1 (dv_ip d) dst ++ echo_message c2 dst) /\
  verifies (plain_ip 1 28 c1 (dv_ip d) dst) /\ verifies (echo_message c2 dst).
Proof. exact echo_frame. Qed.
Print Assumptions C60_frame_icmp.
Theorem C60_frame_tcp : forall ovf d h p, device_ok d -> fst h < 2 ^ 48 -> snd h < 2 ^ 32 -> p < 65536 -> exists c1 c2, c1 < 65536 /\ c2 < 65536 /\
  packet_bytes ovf (tcp_request d h p) = ROk (be48 (fst h) ++ be48 (dv_mac d) ++ [8; 0] ++ plain_ip 6 40 c1 (dv_ip d) (snd h) ++ syn_segment c2 p) /\
  verifies (plain_ip 6 40 c1 (dv_ip d) (snd h)) /\ verifies (pseudo_header (dv_ip d) (snd h) 6 20 ++ syn_segment c2 p).
Proof. exact syn_frame. Qed.
Print Assumptions C60_frame_tcp.
Example C60_frame_case : exists c1 c2,
  packet_bytes true (icmp_request {| dv_mac := 1; dv_ip := 3232235777; dv_mask := 4294967040 |} 3232235779) =
  ROk (everyone ++ [0; 0; 0; 0; 0; 1; 8; 0; 69; 0; 0; 28; 0; 0; 0; 0; 64; 1] ++ c1 ++ [192; 168; 1; 1; 192; 168; 1; 3; 8; 0] ++ c2 ++ [192; 168; 0; 3]).
Proof. exists [247; 140], [55; 84]. vm_compute. reflexivity. Qed.
(** Any header, even one whose values do not fit, becomes bytes. *)
Theorem C60_bytes : forall ovf h dlen b, ih_ttl h < 256 -> protocol_ok (ih_proto h) -> wf_bytes (ih_options h) -> iph_bytes ovf h dlen = ROk b -> wf_bytes b.
Proof. exact any_header. Qed.
Print Assumptions C60_bytes.
(** The identifier of an echo request is found again, its sequence number only as far as it is below 256. *)
Theorem C60_echo_partial : forall id seq d, id < 65536 -> seq < 65536 ->
  icmp_identifier (echo_request id seq d) = id /\ icmp_seq (echo_request id seq d) = seq mod 256.
Proof. exact echo_identifier. Qed.
Print Assumptions C60_echo_partial.
(** The padding of a short frame becomes payload although the length in the header excludes it. *)
Theorem C60_padding : forall ovf h ih d pad bs, eth_ok h -> eh_type h = 2048 -> iph_ok ih -> body_ok ih (BRaw d) ->
  packet_bytes ovf {| pk_header := h; pk_body := EIp ih (BRaw d) |} = ROk bs ->
  packet_parse (bs ++ pad) = ROk {| pk_header := h; pk_body := EIp (set_length ih (20 + nlen (ih_options ih) + nlen d)) (BRaw (d ++ pad)) |}.
Proof. exact padding_kept. Qed.
Print Assumptions C60_padding.
Example C60_padding_nonvacuous : iph_ok (iph_new 1 2 IpUdp 64) /\ body_ok (iph_new 1 2 IpUdp 64) (BRaw [1; 2; 3]).
Proof.
  split; [apply new_header_ok; reflexivity || exact I|]. split; [reflexivity|]. split; discriminate.
Qed.

(** ** C61 Captured frames *)

(** Exactly the frames with an IPv4 header length or TCP data offset below five words crash the parser. *)
Theorem C61_exact_partial : forall data, wf_bytes data -> (packet_parse data = RPanic <-> short_ip data \/ short_tcp data).
Proof. exact packet_panic. Qed.
Print Assumptions C61_exact_partial.
Definition ex_crash : bytes := repeat 0 12 ++ [8; 0; 68] ++ repeat 0 19.
Theorem C61_parse_refuted : exists data, wf_bytes data /\ short_ip data /\ packet_parse data = RPanic.
Proof.
  exists ex_crash. split; [|split; [|reflexivity]].
  - unfold ex_crash. repeat constructor.
  - unfold short_ip. vm_compute. repeat split; discriminate.
Qed.
Print Assumptions C61_parse_refuted.
Definition ex_crash_tcp : bytes := repeat 0 12 ++ [8; 0; 69] ++ repeat 0 8 ++ [6] ++ repeat 0 30.
Theorem C61_tcp_refuted : exists data, wf_bytes data /\ ~ short_ip data /\ short_tcp data /\ packet_parse data = RPanic.
Proof.
  exists ex_crash_tcp. split; [|split; [|split; [|reflexivity]]].
  - unfold ex_crash_tcp. repeat constructor.
  - unfold short_ip. intros (_ & _ & _ & H). vm_compute in H. discriminate.
  - unfold short_tcp. vm_compute. repeat split; discriminate.
Qed.
Print Assumptions C61_tcp_refuted.
(** The ARP scan crashes on exactly the ARP packets with other address sizes than those of Ethernet and IPv4. *)
Theorem C61_arp_partial : forall l, arp_hosts l = RPanic <-> ~ Forall arp_sizes l.
Proof. exact arp_hosts_panic. Qed.
Print Assumptions C61_arp_partial.
Definition ex_crash_arp : bytes := repeat 0 12 ++ [8; 6; 0; 1; 8; 0; 0; 4; 0; 2; 1; 2; 3; 4; 5; 6; 7; 8].
Theorem C61_arp_refuted : exists data p, wf_bytes data /\ packet_parse data = ROk p /\ arp_hosts [p] = RPanic.
Proof.
  exists ex_crash_arp. eexists. split; [|split; [reflexivity|reflexivity]]. unfold ex_crash_arp. repeat constructor.
Qed.
Print Assumptions C61_arp_refuted.

(** ** C62 Hosts and ports probed *)

(** The addresses of an ARP or ICMP scan; the bound of the number of calls is never reached. *)
Theorem C62_hosts_partial : forall ovf d, device_ok d -> network d < 2 ^ 32 - 1 -> exists first, first_address ovf d = ROk first /\
  forall n, (N.to_nat (2 ^ 32) < n)%nat -> collect n (next_address (end_address d)) first = Some (between_addrs (network d) (broadcast d)).
Proof.
  intros ovf d O H. destruct (scan_addresses ovf d H) as (first & E & K). exists first. split; [exact E|]. intros n Hn.
  destruct (K n Hn) as [K'|K']; [exact K'|]. pose proof (broadcast_bound d O). lia.
Qed.
Print Assumptions C62_hosts_partial.
(** These are the addresses strictly between the two, each once. *)
Theorem C62_between : forall a b x, In x (between_addrs a b) <-> a < x < b.
Proof. exact between_in. Qed.
Print Assumptions C62_between.
Theorem C62_once : forall a b, NoDup (between_addrs a b).
Proof. exact between_nodup. Qed.
Print Assumptions C62_once.
Definition ex_device : device := {| dv_mac := 1; dv_ip := 3232235785; dv_mask := 4294967288 |}.
Example C62_hosts_nonvacuous : device_ok ex_device /\ between_addrs (network ex_device) (broadcast ex_device) = [3232235785; 3232235786; 3232235787; 3232235788; 3232235789; 3232235790].
Proof. split; [split; [reflexivity|split; reflexivity]|vm_compute; reflexivity]. Qed.
(** A device with the address and mask 255.255.255.255: the addition overflows, or the scan starts at address 0. *)
Theorem C62_hosts_refuted : exists d, device_ok d /\ between_addrs (network d) (broadcast d) = [] /\ first_address true d = RPanic /\
  first_address false d = ROk 0 /\ next_address (end_address d) 0 = Some (0, 1).
Proof.
  exists {| dv_mac := 1; dv_ip := 4294967295; dv_mask := 4294967295 |}. split; [split; [reflexivity|split; reflexivity]|].
  split; [vm_compute; reflexivity|]. split; [reflexivity|]. split; reflexivity.
Qed.
Print Assumptions C62_hosts_refuted.

(** One SYN for each host and port, in order *)
Theorem C62_ports_partial : forall ovf d c hosts, Forall range_ok c -> exists n0, forall n, (n0 <= n)%nat ->
  tcp_generate n ovf d c hosts (ports_iter c) = ROk (map (fun x => tcp_request d (fst x) (snd x)) (pairs hosts c)).
Proof. exact tcp_generate_all. Qed.
Print Assumptions C62_ports_partial.
Example C62_ports_nonvacuous : Forall range_ok [Range 80 83; Single 554] /\ pairs [(1, 2); (3, 4)] [Range 80 83; Single 554] =
  [((1, 2), 80); ((1, 2), 81); ((1, 2), 82); ((1, 2), 554); ((3, 4), 80); ((3, 4), 81); ((3, 4), 82); ((3, 4), 554)].
Proof. split; [repeat constructor|vm_compute; reflexivity]. Qed.
(** An empty range hides the ranges after it; port 65535 cannot be given as a single port. *)
Theorem C62_ports_refuted : forall d h,
  (forall ovf, tcp_generate 2 ovf d [Range 5 5; Single 80] [h] (ports_iter [Range 5 5; Single 80]) = ROk []) /\
  tcp_generate 2 true d [Single 65535] [h] (ports_iter [Single 65535]) = RPanic /\
  tcp_generate 2 false d [Single 65535] [h] (ports_iter [Single 65535]) = ROk [].
Proof. intros d h. split; [intros []; reflexivity|]. split; reflexivity. Qed.
Print Assumptions C62_ports_refuted.
(** All these packets can be sent and are understood as such. *)
Theorem C62_arp_packet : forall d dst, device_ok d -> dst < 2 ^ 32 -> packet_ok (arp_request d dst).
Proof. exact arp_request_ok. Qed.
Print Assumptions C62_arp_packet.
Theorem C62_icmp_packet : forall d dst, device_ok d -> dst < 2 ^ 32 -> packet_ok (icmp_request d dst).
Proof. exact icmp_request_ok. Qed.
Print Assumptions C62_icmp_packet.
Theorem C62_tcp_packet : forall d h p, device_ok d -> fst h < 2 ^ 48 -> snd h < 2 ^ 32 -> p < 65536 -> packet_ok (tcp_request d h p).
Proof. exact tcp_request_ok. Qed.
Print Assumptions C62_tcp_packet.
Example C62_packet_nonvacuous : device_ok ex_device.
Proof. split; [reflexivity|split; reflexivity]. Qed.

(** ** C77 The packet listener *)

(** The listener stops at the first round in which a limit is exceeded, with the packets of all frames up to then. *)
Theorem C77_stopped : forall soft total start rounds l,
  listen soft total start start rounds [] = Stopped l <->
  exists pre r post, rounds = pre ++ r :: post /\ Forall readable (pre ++ [r]) /\
    (forall a b, pre = a ++ b -> a <> [] -> ~ exceeded soft total start start a) /\
    exceeded soft total start start (pre ++ [r]) /\ l = parsed (frames (pre ++ [r])).
Proof. intros soft total start rounds l. exact (listen_stopped soft total start rounds start [] l). Qed.
Print Assumptions C77_stopped.
(** It goes on exactly as long as everything is readable and no limit is exceeded. *)
Theorem C77_running : forall soft total start rounds,
  listen soft total start start rounds [] = Running <->
  Forall readable rounds /\ (forall a b, rounds = a ++ b -> a <> [] -> ~ exceeded soft total start start a).
Proof. intros soft total start rounds. exact (listen_running soft total start rounds start []). Qed.
Print Assumptions C77_running.
(** Traffic cannot keep it busy beyond the total limit. *)
Theorem C77_limit : forall soft t start rounds last acc f t1 t2 t3, In (Rd f t1 t2 t3) rounds -> start + t < t2 -> listen soft (Some t) start last rounds acc <> Running.
Proof. exact hard_limit. Qed.
Print Assumptions C77_limit.
Example C77_nonvacuous : listen 2 (Some 20) 100 100 [Rd (Some [1; 2]) 101 101 101; Rd None 0 103 103; Rd None 0 104 104; RdError] [] = Stopped [].
Proof. reflexivity. Qed.

(** ** C78 Answers *)

(** Every ARP reply, padded or not, gives the host that sent it. *)
Theorem C78_arp : forall ovf e sha spa tha tpa bs, eth_ok e -> eh_type e = 2054 -> sha < 2 ^ 48 -> spa < 2 ^ 32 ->
  packet_bytes ovf {| pk_header := e; pk_body := EArp (arp_new ArpReply sha spa tha tpa) |} = ROk bs -> forall pad,
  exists p, packet_parse (bs ++ pad) = ROk p /\ arp_hosts [p] = ROk [(sha, spa)].
Proof. exact arp_answer. Qed.
Print Assumptions C78_arp.
Example C78_arp_nonvacuous : exists bs, packet_bytes true {| pk_header := {| eh_src := 5; eh_dst := 6; eh_type := 2054 |}; pk_body := EArp (arp_new ArpReply 5 7 6 8) |} = ROk bs.
Proof. eexists. reflexivity. Qed.
(** Every TCP answer gives its sender and port. *)
Theorem C78_tcp : forall ovf e h t bs, packet_ok {| pk_header := e; pk_body := EIp h (BTcp t) |} ->
  packet_bytes ovf {| pk_header := e; pk_body := EIp h (BTcp t) |} = ROk bs ->
  exists p, packet_parse bs = ROk p /\ tcp_services [p] = [(eh_src e, ih_src h, tp_sport t)].
Proof. exact tcp_answer. Qed.
Print Assumptions C78_tcp.
(** Every IPv4 answer to the ICMP scan gives its sender exactly if it is in the network of the device. *)
Theorem C78_icmp : forall ovf d e h b bs, packet_ok {| pk_header := e; pk_body := EIp h b |} ->
  packet_bytes ovf {| pk_header := e; pk_body := EIp h b |} = ROk bs ->
  exists p, packet_parse bs = ROk p /\ icmp_hosts d [p] = if N.land (ih_src h) (dv_mask d) =? network d then [(eh_src e, ih_src h)] else [].
Proof. exact icmp_answer. Qed.
Print Assumptions C78_icmp.
Example C78_nonvacuous : packet_ok ex_packet /\ exists bs, packet_bytes true ex_packet = ROk bs.
Proof. split; [exact ex_packet_ok|apply packet_total, ex_packet_ok]. Qed.
