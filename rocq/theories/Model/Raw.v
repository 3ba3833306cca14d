(** Raw packets: src/net/raw/utils.rs, ether/packet.rs, arp.rs, ip.rs, icmp.rs, tcp.rs and pcap/mod.rs.

    A MAC address is a number below 2^48 and an IPv4 address a number below 2^32. The `Box<[u32]>` options of IPv4 and
    TCP headers are the bytes of that memory, which are written and read unchanged; their number of elements is the
    number of bytes divided by four. [ovf] tells that the program is compiled with overflow checks: an overflow is a
    panic then, otherwise the value wraps. `(a << k) | (b & mask)` with the mask below 2^k is written as a sum. *)
From Coq Require Import NArith List Bool.
From Verif.Model Require Import Bytes.
Import ListNotations.
Local Open Scope N_scope.

Definition bind {A B} (r : result A) (f : A -> result B) : result B :=
  match r with ROk a => f a | RErr => RErr | RPanic => RPanic end.

(** ** Checksums *)

(** utils.rs:50-71, `sum_raw_be`, added to [acc] *)
Fixpoint sum_be (l : bytes) (acc : N) : N :=
  match l with
  | a :: b :: r => sum_be r (u32 (acc + (a * 256 + b)))
  | [a] => u32 (acc + a * 256)
  | [] => acc
  end.
(** utils.rs:76-80, the loop of `sum_to_checksum`. The first argument bounds the number of rounds. *)
Fixpoint fold_sum (fuel : nat) (s : N) : N :=
  match fuel with
  | O => s
  | S f => if s / 2 ^ 16 =? 0 then s else fold_sum f (s mod 2 ^ 16 + s / 2 ^ 16)
  end.
(** utils.rs:73-83 *)
Definition sum_to_checksum (s : N) : N := u16 (2 ^ 32 - 1 - fold_sum 3 s).

(** ** ICMP *)

(** icmp.rs:32-58 *)
Inductive icmp_type := Echo | EchoReply | IcmpUnknown (c : N).
Definition icmp_code (t : icmp_type) : N := match t with Echo => 8 | EchoReply => 0 | IcmpUnknown c => c end.
Definition icmp_of (c : N) : icmp_type := if c =? 8 then Echo else if c =? 0 then EchoReply else IcmpUnknown c.
(** icmp.rs:60-66 *)
Record icmp := { ic_type : icmp_type; ic_code : N; ic_rest : N; ic_body : bytes }.
(** icmp.rs:69-85 *)
Definition echo_request (id seq : N) (payload : bytes) : icmp :=
  {| ic_type := Echo; ic_code := 0; ic_rest := id * 2 ^ 16 + seq; ic_body := payload |}.
(** icmp.rs:126-140 *)
Definition icmp_checksum (p : icmp) : N :=
  let s := icmp_code (ic_type p) * 256 + ic_code p in
  let s := u32 (s + ic_rest p / 2 ^ 16) in
  let s := u32 (s + N.land (ic_rest p) 255) in
  sum_to_checksum (u32 (s + sum_be (ic_body p) 0)).
(** icmp.rs:114-124, 143-153, 162-170 *)
Definition icmp_bytes (p : icmp) : bytes :=
  [icmp_code (ic_type p); ic_code p] ++ to_be 2 (icmp_checksum p) ++ to_be 4 (ic_rest p) ++ ic_body p.
(** icmp.rs:87-112 *)
Definition icmp_parse (data : bytes) : result icmp :=
  if nlen data <? 8 then RErr
  else ROk {| ic_type := icmp_of (of_be (field data 0 1)); ic_code := of_be (field data 1 1);
              ic_rest := of_be (field data 4 4); ic_body := skipn 8 data |}.
(** icmp.rs:183-190 *)
Definition icmp_identifier (p : icmp) : N := u16 (ic_rest p / 2 ^ 16).
Definition icmp_seq (p : icmp) : N := u16 (N.land (ic_rest p) 255).

(** ** IPv4 *)

(** ip.rs:185-218 *)
Inductive ip_type := IpIcmp | IpTcp | IpUdp | IpUnknown (c : N).
Definition ip_code (t : ip_type) : N := match t with IpIcmp => 1 | IpTcp => 6 | IpUdp => 17 | IpUnknown c => c end.
Definition ip_of (c : N) : ip_type := if c =? 1 then IpIcmp else if c =? 6 then IpTcp else if c =? 17 then IpUdp else IpUnknown c.
(** ip.rs:37-53 *)
Record iph := {
  ih_version : N; ih_dscp : N; ih_ecn : N; ih_ident : N; ih_flags : N; ih_foffset : N; ih_ttl : N;
  ih_proto : ip_type; ih_src : N; ih_dst : N; ih_options : bytes; ih_length : N
}.
(** ip.rs:56-77 *)
Definition iph_new (src dst : N) (proto : ip_type) (ttl : N) : iph :=
  {| ih_version := 4; ih_dscp := 0; ih_ecn := 0; ih_ident := 0; ih_flags := 0; ih_foffset := 0; ih_ttl := ttl;
     ih_proto := proto; ih_src := src; ih_dst := dst; ih_options := []; ih_length := 0 |}.
Definition opt_count (o : bytes) : N := nlen o / 4.

(** ** TCP *)

(** tcp.rs:38-49 *)
Record tcp := {
  tp_sport : N; tp_dport : N; tp_seq : N; tp_ack : N; tp_flags : N; tp_wsize : N; tp_uptr : N;
  tp_options : bytes; tp_data : bytes
}.
(** tcp.rs:52-67 *)
Definition tcp_new (sport dport flags : N) (data : bytes) : tcp :=
  {| tp_sport := sport; tp_dport := dport; tp_seq := 0; tp_ack := 0; tp_flags := flags; tp_wsize := 8192;
     tp_uptr := 0; tp_options := []; tp_data := data |}.
(** tcp.rs:140-151, `RawTcpPacketHeader` *)
Definition tcp_raw (p : tcp) (doffset_flags checksum : N) : bytes :=
  to_be 2 (tp_sport p) ++ to_be 2 (tp_dport p) ++ to_be 4 (tp_seq p) ++ to_be 4 (tp_ack p) ++ to_be 2 doffset_flags
  ++ to_be 2 (tp_wsize p) ++ to_be 2 checksum ++ to_be 2 0.
(** tcp.rs:184-206, `PseudoIpv4PacketHeader` *)
Definition pseudo (h : iph) (len : N) : bytes :=
  to_be 4 (ih_src h) ++ to_be 4 (ih_dst h) ++ [0; ip_code (ih_proto h)] ++ to_be 2 len.

Section Build.
  Variable ovf : bool.

  (** An addition of an unsigned type with [2^k] values. *)
  Definition add (k : N) (a b : N) : result N :=
    if ovf && (2 ^ k <=? a + b) then RPanic else ROk ((a + b) mod 2 ^ k).

  (** tcp.rs:121-130, 153-182 *)
  Definition tcp_bytes (h : iph) (p : tcp) : result bytes :=
    bind (add 16 5 (u16 (opt_count (tp_options p)))) (fun doffset =>
    bind (add 16 (u16 (doffset * 4)) (u16 (nlen (tp_data p)))) (fun len =>
    let df := u16 (doffset * 2 ^ 12) + tp_flags p mod 2 ^ 9 in
    let s := sum_be (pseudo h len) 0 in
    let s := u32 (s + sum_be (tcp_raw p df 0) 0) in
    let s := u32 (s + sum_be (tp_options p) 0) in
    let s := u32 (s + sum_be (tp_data p) 0) in
    ROk (tcp_raw p df (sum_to_checksum s) ++ tp_options p ++ tp_data p))).

  (** ip.rs:219-236, icmp.rs:143-160, tcp.rs:121-138: the bodies *)
  Inductive ip_body := BIcmp (p : icmp) | BTcp (p : tcp) | BRaw (d : bytes).
  Definition body_len (b : ip_body) : N :=
    match b with
    | BIcmp p => 8 + nlen (ic_body p)
    | BTcp p => 20 + 4 * opt_count (tp_options p) + nlen (tp_data p)
    | BRaw d => nlen d
    end.
  Definition body_bytes (h : iph) (b : ip_body) : result bytes :=
    match b with
    | BIcmp p => ROk (icmp_bytes p)
    | BTcp p => tcp_bytes h p
    | BRaw d => ROk d
    end.

  (** ip.rs:140-154, `RawIpv4PacketHeader` *)
  Definition ip_raw (h : iph) (ihl length checksum : N) : bytes :=
    [u8 (ih_version h * 16) + ihl mod 16; u8 (ih_dscp h * 4) + ih_ecn h mod 4] ++ to_be 2 length ++ to_be 2 (ih_ident h)
    ++ to_be 2 (u16 (ih_flags h * 2 ^ 13) + ih_foffset h mod 2 ^ 13) ++ [ih_ttl h; ip_code (ih_proto h)] ++ to_be 2 checksum
    ++ to_be 4 (ih_src h) ++ to_be 4 (ih_dst h).
  (** ip.rs:79-87, 156-184 *)
  Definition iph_bytes (h : iph) (dlen : N) : result bytes :=
    bind (add 8 5 (u8 (opt_count (ih_options h)))) (fun ihl =>
    let length := u16 (20 + 4 * opt_count (ih_options h) + dlen) in
    let s := sum_be (ip_raw h ihl length 0) 0 in
    let s := u32 (s + sum_be (ih_options h) 0) in
    ROk (ip_raw h ihl length (sum_to_checksum s) ++ ih_options h)).
  (** ip.rs:310-317 *)
  Definition ip_bytes (h : iph) (b : ip_body) : result bytes :=
    bind (iph_bytes h (body_len b)) (fun a => bind (body_bytes h b) (fun c => ROk (a ++ c))).
End Build.

(** tcp.rs:69-118. With a data offset below five the subtraction overflows: a panic with overflow checks; without them
    `Vec::with_capacity` of almost 2^64 elements panics. *)
Definition tcp_parse (data : bytes) : result tcp :=
  if nlen data <? 20 then RErr
  else
    let df := of_be (field data 12 2) in
    let doffset := df / 2 ^ 12 in
    if doffset <? 5 then RPanic
    else
      let n := 4 * (doffset - 5) in
      if nlen data <? 20 + n then RErr
      else ROk {| tp_sport := of_be (field data 0 2); tp_dport := of_be (field data 2 2); tp_seq := of_be (field data 4 4);
                  tp_ack := of_be (field data 8 4); tp_flags := df mod 2 ^ 9; tp_wsize := of_be (field data 14 2);
                  tp_uptr := of_be (field data 18 2); tp_options := field data 20 (N.to_nat n);
                  tp_data := skipn (20 + N.to_nat n) data |}.

(** ip.rs:89-137; a header length below five as above *)
Definition iph_parse (data : bytes) : result iph :=
  if nlen data <? 20 then RErr
  else
    let vihl := of_be (field data 0 1) in
    let ff := of_be (field data 6 2) in
    let ihl := vihl mod 16 in
    if ihl <? 5 then RPanic
    else
      let n := 4 * (ihl - 5) in
      if nlen data <? 20 + n then RErr
      else ROk {| ih_version := vihl / 16; ih_dscp := of_be (field data 1 1) / 4; ih_ecn := of_be (field data 1 1) mod 4;
                  ih_ident := of_be (field data 4 2); ih_flags := ff / 2 ^ 13; ih_foffset := ff mod 2 ^ 13;
                  ih_ttl := of_be (field data 8 1); ih_proto := ip_of (of_be (field data 9 1));
                  ih_src := of_be (field data 12 4); ih_dst := of_be (field data 16 4);
                  ih_options := field data 20 (N.to_nat n); ih_length := of_be (field data 2 2) |}.
(** ip.rs:272-294 *)
Definition ip_parse (data : bytes) : result (iph * ip_body) :=
  bind (iph_parse data) (fun h =>
  let payload := skipn (20 + length (ih_options h)) data in
  match ih_proto h with
  | IpIcmp => bind (icmp_parse payload) (fun p => ROk (h, BIcmp p))
  | IpTcp => bind (tcp_parse payload) (fun p => ROk (h, BTcp p))
  | _ => ROk (h, BRaw payload)
  end).

(** ** ARP *)

(** arp.rs:43-71 *)
Inductive arp_op := ArpRequest | ArpReply | ArpUnknown (c : N).
Definition op_code (o : arp_op) : N := match o with ArpRequest => 1 | ArpReply => 2 | ArpUnknown c => c end.
Definition op_of (c : N) : arp_op := if c =? 1 then ArpRequest else if c =? 2 then ArpReply else ArpUnknown c.
(** arp.rs:29-41 *)
Record arp := {
  ar_htype : N; ar_ptype : N; ar_hlen : N; ar_plen : N; ar_oper : arp_op;
  ar_sha : bytes; ar_spa : bytes; ar_tha : bytes; ar_tpa : bytes
}.
(** arp.rs:77-96 *)
Definition arp_new (op : arp_op) (sha spa tha tpa : N) : arp :=
  {| ar_htype := 1; ar_ptype := 2048; ar_hlen := 6; ar_plen := 4; ar_oper := op;
     ar_sha := to_be 6 sha; ar_spa := to_be 4 spa; ar_tha := to_be 6 tha; ar_tpa := to_be 4 tpa |}.
(** arp.rs:148-161, 165-188 *)
Definition arp_bytes (p : arp) : bytes :=
  to_be 2 (ar_htype p) ++ to_be 2 (ar_ptype p) ++ [ar_hlen p; ar_plen p] ++ to_be 2 (op_code (ar_oper p))
  ++ ar_sha p ++ ar_spa p ++ ar_tha p ++ ar_tpa p.
(** arp.rs:98-145 *)
Definition arp_parse (data : bytes) : result arp :=
  if nlen data <? 8 then RErr
  else
    let hlen := of_be (field data 4 1) in
    let plen := of_be (field data 5 1) in
    if nlen data <? 8 + 2 * hlen + 2 * plen then RErr
    else
      let h := N.to_nat hlen in
      let p := N.to_nat plen in
      ROk {| ar_htype := of_be (field data 0 2); ar_ptype := of_be (field data 2 2); ar_hlen := hlen; ar_plen := plen;
             ar_oper := op_of (of_be (field data 6 2));
             ar_sha := field data 8 h; ar_spa := field data (8 + h) p;
             ar_tha := field data (8 + h + p) h; ar_tpa := field data (8 + h + p + h) p |}.

(** ** Ethernet *)

(** ether/packet.rs:64-70 *)
Record eth := { eh_src : N; eh_dst : N; eh_type : N }.
(** ether/packet.rs:158-167 *)
Inductive eth_body := EArp (p : arp) | EIp (h : iph) (b : ip_body) | ERaw (d : bytes).
Record packet := { pk_header : eth; pk_body : eth_body }.
(** ether/packet.rs:181-192 *)
Definition packet_arp (src dst : N) (p : arp) : packet := {| pk_header := {| eh_src := src; eh_dst := dst; eh_type := 2054 |}; pk_body := EArp p |}.
Definition packet_ip (src dst : N) (h : iph) (b : ip_body) : packet :=
  {| pk_header := {| eh_src := src; eh_dst := dst; eh_type := 2048 |}; pk_body := EIp h b |}.
(** ether/packet.rs:87-94, 113-126 *)
Definition eth_bytes (h : eth) : bytes := to_be 6 (eh_dst h) ++ to_be 6 (eh_src h) ++ to_be 2 (eh_type h).
(** ether/packet.rs:231-238 *)
Definition packet_bytes (ovf : bool) (p : packet) : result bytes :=
  bind (match pk_body p with
        | EArp a => ROk (arp_bytes a)
        | EIp h b => ip_bytes ovf h b
        | ERaw d => ROk d
        end) (fun b => ROk (eth_bytes (pk_header p) ++ b)).
(** ether/packet.rs:96-110 and 194-215 *)
Definition packet_parse (data : bytes) : result packet :=
  if nlen data <? 14 then RErr
  else
    let h := {| eh_dst := of_be (field data 0 6); eh_src := of_be (field data 6 6); eh_type := of_be (field data 12 2) |} in
    let payload := skipn 14 data in
    if eh_type h =? 2054 then bind (arp_parse payload) (fun a => ROk {| pk_header := h; pk_body := EArp a |})
    else if eh_type h =? 2048 then bind (ip_parse payload) (fun x => ROk {| pk_header := h; pk_body := EIp (fst x) (snd x) |})
    else ROk {| pk_header := h; pk_body := ERaw payload |}.

(** ** Generators of packets *)

(** src/net/raw/devices/mod.rs:42-49 *)
Record device := { dv_mac : N; dv_ip : N; dv_mask : N }.
Definition bcast : N := 2 ^ 48 - 1.

(** A generator function is called until it returns nothing (pcap/mod.rs:341-352). The first argument bounds the number of
    calls; [None]: the bound was reached. *)
Fixpoint collect {S A} (fuel : nat) (next : S -> option (A * S)) (s : S) : option (list A) :=
  match fuel with
  | O => None
  | Datatypes.S f =>
      match next s with
      | None => Some []
      | Some (a, s') => option_map (cons a) (collect f next s')
      end
  end.

(** arp.rs:237-239 and icmp.rs:252-254: the first address and the end; `(addr & mask) + 1` is a u32 *)
Definition first_address (ovf : bool) (d : device) : result N := add ovf 32 (N.land (dv_ip d) (dv_mask d)) 1.
Definition end_address (d : device) : N := N.lor (dv_ip d) (2 ^ 32 - 1 - dv_mask d).
(** arp.rs:243-267, icmp.rs:258-281: the address of the next packet; [last] is `end` *)
Definition next_address (last current : N) : option (N * N) := if current <? last then Some (current, current + 1) else None.
(** arp.rs:245-254 *)
Definition arp_request (d : device) (dst : N) : packet := packet_arp (dv_mac d) bcast (arp_new ArpRequest (dv_mac d) (dv_ip d) 0 dst).
(** icmp.rs:260-267 *)
Definition icmp_request (d : device) (dst : N) : packet :=
  packet_ip (dv_mac d) bcast (iph_new (dv_ip d) dst IpIcmp 64) (BIcmp (echo_request (u16 (dst / 2 ^ 16)) (u16 (N.land dst 255)) [])).

(** tcp.rs:228-257; a range is a pair of its start and its (excluded) end *)
Inductive port_range := Single (p : N) | Range (a b : N).
Definition to_range (ovf : bool) (r : port_range) : result (N * N) :=
  match r with
  | Range a b => ROk (a, b)
  | Single p => bind (add ovf 16 p 1) (fun e => ROk (p, e))
  end.
(** tcp.rs:298-336: the iterator: the ranges left, the end of the current one and the next port *)
Record port_iter := { pi_ranges : list port_range; pi_last : N; pi_port : N }.
Definition ports_iter (c : list port_range) : port_iter := {| pi_ranges := c; pi_last := 0; pi_port := 0 |}.
Definition port_next (ovf : bool) (i : port_iter) : result (option N * port_iter) :=
  bind (if pi_last i <=? pi_port i then
          match pi_ranges i with
          | r :: rs => bind (to_range ovf r) (fun x => ROk {| pi_ranges := rs; pi_last := snd x; pi_port := fst x |})
          | [] => ROk i
          end
        else ROk i) (fun i =>
  if pi_port i <? pi_last i
  then ROk (Some (pi_port i), {| pi_ranges := pi_ranges i; pi_last := pi_last i; pi_port := pi_port i + 1 |})
  else ROk (None, i)).

(** tcp.rs:452-462, the source port of the scan: tcp.rs:375 *)
Definition SPORT : N := 61234.
Definition tcp_request (d : device) (host : N * N) (port : N) : packet :=
  packet_ip (dv_mac d) (fst host) (iph_new (dv_ip d) (snd host) IpTcp 64) (BTcp (tcp_new SPORT port 2 [])).
(** tcp.rs:415-472, `next` called until it returns nothing, all packets; the first argument bounds the number of steps. [hosts]
    starts with the current host. *)
Fixpoint tcp_generate (fuel : nat) (ovf : bool) (d : device) (c : list port_range) (hosts : list (N * N)) (i : port_iter) : result (list packet) :=
  match fuel with
  | O => RErr
  | S f =>
      match hosts with
      | [] => ROk []
      | h :: hs =>
          bind (port_next ovf i) (fun x =>
          match x with
          | (Some p, i') => bind (tcp_generate f ovf d c hosts i') (fun l => ROk (tcp_request d h p :: l))
          | (None, _) => tcp_generate f ovf d c hs (ports_iter c)
          end)
      end
  end.

(** ** Results of scans *)

(** src/net/raw/ether/mod.rs:77-80 and src/net/utils.rs:43-51, `from_slice` *)
Definition from_slice (k : N) (s : bytes) : result N := if nlen s =? k then ROk (of_be s) else RPanic.
(** arp.rs:278-287 *)
Fixpoint arp_hosts (l : list packet) : result (list (N * N)) :=
  match l with
  | [] => ROk []
  | p :: r =>
      match pk_body p with
      | EArp a =>
          bind (from_slice 6 (ar_sha a)) (fun sha =>
          bind (from_slice 4 (ar_spa a)) (fun spa =>
          bind (arp_hosts r) (fun hs => ROk ((sha, spa) :: hs))))
      | _ => arp_hosts r
      end
  end.
(** icmp.rs:295-312 *)
Definition icmp_hosts (d : device) (l : list packet) : list (N * N) :=
  flat_map (fun p => match pk_body p with
                     | EIp h _ => if N.land (ih_src h) (dv_mask d) =? N.land (dv_ip d) (dv_mask d) then [(eh_src (pk_header p), ih_src h)] else []
                     | _ => []
                     end) l.
(** tcp.rs:394-409 *)
Definition tcp_services (l : list packet) : list (N * N * N) :=
  flat_map (fun p => match pk_body p with
                     | EIp h (BTcp t) => [(eh_src (pk_header p), ih_src h, tp_sport t)]
                     | _ => []
                     end) l.

(** ** The packet listener *)

(** One round of the loop of pcap/mod.rs:315-335: the frame read (if any), the time stored as that of the last packet and the
    times of the two checks. [RdError]: reading fails. *)
Inductive round := Rd (frame : option bytes) (t1 t2 t3 : N) | RdError.
Inductive listening := Running | Stopped (l : list packet) | Failed | Crashed.
(** pcap/mod.rs:292-338; [start] is the start time, [last] the time of the last packet *)
Fixpoint listen (soft : N) (total : option N) (start last : N) (rounds : list round) (acc : list packet) : listening :=
  match rounds with
  | [] => Running
  | RdError :: _ => Failed
  | Rd frame t1 t2 t3 :: r =>
      let go last acc :=
        if match total with Some t => t <? t2 - start | None => false end then Stopped acc
        else if soft <? t3 - last then Stopped acc
        else listen soft total start last r acc in
      match frame with
      | None => go last acc
      | Some f => match packet_parse f with
                  | ROk p => go t1 (acc ++ [p])
                  | RErr => go t1 acc
                  | RPanic => Crashed
                  end
      end
  end.
