(** Vocabulary of the raw packet properties. *)
From Coq Require Import NArith List Bool.
From Verif.Model Require Import Bytes Raw.
Import ListNotations.
Local Open Scope N_scope.

(** ** Checksum verification (RFC 1071) *)

(** 16-bit words; an odd last byte is followed by a zero. *)
Fixpoint words16 (l : bytes) : list N :=
  match l with
  | a :: b :: r => (a * 256 + b) :: words16 r
  | [a] => [a * 256]
  | [] => []
  end.
(** One's complement addition: the carry is added to the sum. *)
Definition oc_add (a b : N) : N := if a + b <? 65536 then a + b else a + b - 65535.
Definition ones_sum (l : list N) : N := fold_left oc_add l 0.
(** What a receiver checks. *)
Definition verifies (l : bytes) : Prop := ones_sum (words16 l) = 65535.

(** Numbers in network byte order *)
Definition be16 (n : N) : bytes := [n / 256; n mod 256].
Definition be32 (n : N) : bytes := [n / 2 ^ 24; n / 2 ^ 16 mod 256; n / 2 ^ 8 mod 256; n mod 256].
Definition be48 (n : N) : bytes := be16 (n / 2 ^ 32) ++ be32 (n mod 2 ^ 32).
(** The pseudo header of RFC 793: both addresses, a zero, the protocol and the length of the segment. *)
Definition pseudo_header (src dst proto len : N) : bytes := be32 src ++ be32 dst ++ [0; proto] ++ be16 len.

(** ** Headers on the wire: RFC 791, 793, 792, 826 and 894 *)

(** Assigned numbers: protocols, ICMP types and ARP operations; the others stand for themselves. *)
Definition protocol_number (t : ip_type) : N := match t with IpIcmp => 1 | IpTcp => 6 | IpUdp => 17 | IpUnknown c => c end.
Definition icmp_number (t : icmp_type) : N := match t with Echo => 8 | EchoReply => 0 | IcmpUnknown c => c end.
Definition op_number (o : arp_op) : N := match o with ArpRequest => 1 | ArpReply => 2 | ArpUnknown c => c end.
Definition protocol_ok (t : ip_type) : Prop := match t with IpUnknown c => c < 256 /\ ~ In c [1; 6; 17] | _ => True end.
Definition icmp_type_ok (t : icmp_type) : Prop := match t with IcmpUnknown c => c < 256 /\ ~ In c [8; 0] | _ => True end.
Definition op_ok (o : arp_op) : Prop := match o with ArpUnknown c => c < 65536 /\ ~ In c [1; 2] | _ => True end.
Definition ip_layout (h : iph) (length checksum : N) : bytes :=
  [16 * ih_version h + (20 + nlen (ih_options h)) / 4; 4 * ih_dscp h + ih_ecn h] ++ be16 length
  ++ be16 (ih_ident h) ++ be16 (2 ^ 13 * ih_flags h + ih_foffset h)
  ++ [ih_ttl h; protocol_number (ih_proto h)] ++ be16 checksum ++ be32 (ih_src h) ++ be32 (ih_dst h) ++ ih_options h.
Definition tcp_layout (p : tcp) (urgent checksum : N) : bytes :=
  be16 (tp_sport p) ++ be16 (tp_dport p) ++ be32 (tp_seq p) ++ be32 (tp_ack p)
  ++ be16 (2 ^ 12 * ((20 + nlen (tp_options p)) / 4) + tp_flags p) ++ be16 (tp_wsize p) ++ be16 checksum ++ be16 urgent
  ++ tp_options p ++ tp_data p.
Definition icmp_layout (p : icmp) (checksum : N) : bytes :=
  [icmp_number (ic_type p); ic_code p] ++ be16 checksum ++ be32 (ic_rest p) ++ ic_body p.
Definition arp_layout (p : arp) : bytes :=
  be16 (ar_htype p) ++ be16 (ar_ptype p) ++ [nlen (ar_sha p); nlen (ar_spa p)] ++ be16 (op_number (ar_oper p))
  ++ ar_sha p ++ ar_spa p ++ ar_tha p ++ ar_tpa p.
Definition eth_layout (h : eth) : bytes := be48 (eh_dst h) ++ be48 (eh_src h) ++ be16 (eh_type h).

(** ** Values that fit their fields *)
Definition options_ok (o : bytes) : Prop := wf_bytes o /\ nlen o mod 4 = 0 /\ nlen o <= 40.
Record iph_ok (h : iph) : Prop := {
  ok_version : ih_version h < 16; ok_dscp : ih_dscp h < 64; ok_ecn : ih_ecn h < 4; ok_ident : ih_ident h < 65536;
  ok_flags : ih_flags h < 8; ok_foffset : ih_foffset h < 8192; ok_ttl : ih_ttl h < 256;
  ok_proto : protocol_ok (ih_proto h);
  ok_src : ih_src h < 2 ^ 32; ok_dst : ih_dst h < 2 ^ 32; ok_options : options_ok (ih_options h)
}.
Record tcp_ok (p : tcp) : Prop := {
  ok_sport : tp_sport p < 65536; ok_dport : tp_dport p < 65536; ok_seq : tp_seq p < 2 ^ 32; ok_ack : tp_ack p < 2 ^ 32;
  ok_tflags : tp_flags p < 512; ok_wsize : tp_wsize p < 65536; ok_uptr : tp_uptr p < 65536;
  ok_toptions : options_ok (tp_options p); ok_data : wf_bytes (tp_data p)
}.
Record icmp_ok (p : icmp) : Prop := {
  ok_type : icmp_type_ok (ic_type p); ok_code : ic_code p < 256;
  ok_rest : ic_rest p < 2 ^ 32; ok_body : wf_bytes (ic_body p)
}.
Record arp_ok (p : arp) : Prop := {
  ok_htype : ar_htype p < 65536; ok_ptype : ar_ptype p < 65536; ok_hlen : ar_hlen p < 256; ok_plen : ar_plen p < 256;
  ok_oper : op_ok (ar_oper p);
  ok_sha : nlen (ar_sha p) = ar_hlen p; ok_spa : nlen (ar_spa p) = ar_plen p;
  ok_tha : nlen (ar_tha p) = ar_hlen p; ok_tpa : nlen (ar_tpa p) = ar_plen p
}.
Record eth_ok (h : eth) : Prop := { ok_esrc : eh_src h < 2 ^ 48; ok_edst : eh_dst h < 2 ^ 48; ok_etype : eh_type h < 65536 }.
(** The body is of the kind announced by the header, and the packet is not longer than an IPv4 packet can be. *)
Definition body_ok (h : iph) (b : ip_body) : Prop :=
  20 + nlen (ih_options h) + body_len b < 65536 /\
  match b with
  | BIcmp p => icmp_ok p /\ ih_proto h = IpIcmp
  | BTcp p => tcp_ok p /\ ih_proto h = IpTcp
  | BRaw d => ih_proto h <> IpIcmp /\ ih_proto h <> IpTcp
  end.
Definition packet_ok (p : packet) : Prop :=
  eth_ok (pk_header p) /\
  match pk_body p with
  | EArp a => arp_ok a /\ eh_type (pk_header p) = 2054
  | EIp h b => iph_ok h /\ body_ok h b /\ eh_type (pk_header p) = 2048
  | ERaw d => eh_type (pk_header p) <> 2054 /\ eh_type (pk_header p) <> 2048
  end.

(** The length field of a parsed header is that of the packet; a built header does not have it. *)
Definition set_length (h : iph) (n : N) : iph :=
  {| ih_version := ih_version h; ih_dscp := ih_dscp h; ih_ecn := ih_ecn h; ih_ident := ih_ident h; ih_flags := ih_flags h;
     ih_foffset := ih_foffset h; ih_ttl := ih_ttl h; ih_proto := ih_proto h; ih_src := ih_src h; ih_dst := ih_dst h;
     ih_options := ih_options h; ih_length := n |}.
Definition no_urgent (p : tcp) : tcp :=
  {| tp_sport := tp_sport p; tp_dport := tp_dport p; tp_seq := tp_seq p; tp_ack := tp_ack p; tp_flags := tp_flags p;
     tp_wsize := tp_wsize p; tp_uptr := 0; tp_options := tp_options p; tp_data := tp_data p |}.
Definition with_length (p : packet) : packet :=
  match pk_body p with
  | EIp h b => {| pk_header := pk_header p; pk_body := EIp (set_length h (20 + nlen (ih_options h) + body_len b)) b |}
  | _ => p
  end.
Definition without_urgent (p : packet) : packet :=
  match pk_body p with
  | EIp h (BTcp t) => {| pk_header := pk_header p; pk_body := EIp h (BTcp (no_urgent t)) |}
  | _ => p
  end.
Definition urgent (p : packet) : N := match pk_body p with EIp _ (BTcp t) => tp_uptr t | _ => 0 end.

(** ** Frames *)
Definition byte_at (data : bytes) (i : nat) : N := nth i data 0.
(** An IPv4 frame with a header length below five words *)
Definition short_ip (data : bytes) : Prop :=
  34 <= nlen data /\ byte_at data 12 = 8 /\ byte_at data 13 = 0 /\ byte_at data 14 mod 16 < 5.
(** A TCP segment with a data offset below five words *)
Definition short_tcp (data : bytes) : Prop :=
  34 <= nlen data /\ byte_at data 12 = 8 /\ byte_at data 13 = 0 /\ byte_at data 23 = 6 /\
  let n := 4 * (byte_at data 14 mod 16) in
  5 <= byte_at data 14 mod 16 /\ 34 + n <= nlen data /\ byte_at data (26 + N.to_nat n) / 16 < 5.

(** ** Networks and ports *)

(** Addresses strictly between two addresses, in order *)
Definition between_addrs (a b : N) : list N := map (fun i => a + 1 + N.of_nat i) (seq 0 (N.to_nat (b - a - 1))).
Definition network (d : device) : N := N.land (dv_ip d) (dv_mask d).
Definition broadcast (d : device) : N := N.lor (dv_ip d) (2 ^ 32 - 1 - dv_mask d).
Definition device_ok (d : device) : Prop := dv_mac d < 2 ^ 48 /\ dv_ip d < 2 ^ 32 /\ dv_mask d < 2 ^ 32.
(** The ports of a collection, in order *)
Definition ports_of (r : port_range) : list N :=
  match r with
  | Single p => [p]
  | Range a b => map (fun i => a + N.of_nat i) (seq 0 (N.to_nat (b - a)))
  end.
Definition range_ok (r : port_range) : Prop := match r with Single p => p < 65535 | Range a b => a < b /\ b < 65536 end.
Definition pairs (hosts : list (N * N)) (c : list port_range) : list ((N * N) * N) :=
  flat_map (fun h => map (pair h) (flat_map ports_of c)) hosts.

(** ** The packet listener *)
Definition frames (l : list round) : list bytes := flat_map (fun r => match r with Rd (Some f) _ _ _ => [f] | _ => [] end) l.
(** The packets of the frames that can be parsed *)
Definition parsed (l : list bytes) : list packet := flat_map (fun f => match packet_parse f with ROk p => [p] | _ => [] end) l.
(** The time of the last frame *)
Fixpoint last_frame (last : N) (l : list round) : N :=
  match l with
  | [] => last
  | Rd (Some _) t1 _ _ :: r => last_frame t1 r
  | _ :: r => last_frame last r
  end.
(** A round that reads something or nothing, and does not crash *)
Definition readable (r : round) : Prop := match r with Rd (Some f) _ _ _ => packet_parse f <> RPanic | Rd None _ _ _ => True | RdError => False end.
(** The time limits are exceeded in the last of the rounds. *)
Definition exceeded (soft : N) (total : option N) (start last : N) (l : list round) : Prop :=
  exists pre f t1 t2 t3, l = pre ++ [Rd f t1 t2 t3] /\
  ((exists t, total = Some t /\ t < t2 - start) \/ soft < t3 - last_frame last l).

(** ** The frames a scan sends, byte by byte *)
Definition everyone : bytes := [255; 255; 255; 255; 255; 255].
Definition arp_query (d : device) (dst : N) : bytes :=
  everyone ++ be48 (dv_mac d) ++ [8; 6; 0; 1; 8; 0; 6; 4; 0; 1] ++ be48 (dv_mac d) ++ be32 (dv_ip d) ++ [0; 0; 0; 0; 0; 0] ++ be32 dst.
(** An IPv4 header without options, with given protocol, length and checksum *)
Definition plain_ip (proto len c src dst : N) : bytes := [69; 0] ++ be16 len ++ [0; 0; 0; 0; 64; proto] ++ be16 c ++ be32 src ++ be32 dst.
Definition echo_message (c dst : N) : bytes := [8; 0] ++ be16 c ++ be16 (dst / 65536) ++ [0; dst mod 256].
Definition syn_segment (c port : N) : bytes := be16 61234 ++ be16 port ++ [0; 0; 0; 0; 0; 0; 0; 0; 80; 2; 32; 0] ++ be16 c ++ [0; 0].
