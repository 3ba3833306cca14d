(** Vocabulary of the properties of a whole scan: frames byte by byte, and the language of capture filters. *)
From Coq Require Import String NArith List Bool.
From Verif.Model Require Import Bytes Text Mac Raw Scan.
From Verif.Spec Require Import RawSpec.
Import ListNotations.
Local Open Scope N_scope.
Local Open Scope list_scope.

(** ** Frames *)
Definition num (f : bytes) (off len : nat) : N := of_be (firstn len (skipn off f)).
Definition is_arp (f : bytes) : Prop := num f 12 2 = 2054.
Definition is_ip (f : bytes) : Prop := num f 12 2 = 2048.
Definition eth_dst (f : bytes) : N := num f 0 6.
Definition eth_src (f : bytes) : N := num f 6 6.
Definition ip_proto (f : bytes) : N := byte_at f 23.
Definition ip_src (f : bytes) : N := num f 26 4.
Definition ip_dst (f : bytes) : N := num f 30 4.
(** Where the payload of an IPv4 frame starts *)
Definition inside (f : bytes) : nat := 14 + 4 * N.to_nat (byte_at f 14 mod 16).
Definition port_from (f : bytes) : N := num f (inside f) 2.
Definition port_to (f : bytes) : N := num f (inside f + 2) 2.
Definition tcp_bits (f : bytes) : N := byte_at f (inside f + 13).

(** An ARP frame sent to [mac_to] that tells the addresses of its sender *)
Definition arp_from (mac_to mac ip : N) (f : bytes) : Prop :=
  is_arp f /\ eth_dst f = mac_to /\ byte_at f 18 = 6 /\ byte_at f 19 = 4 /\ num f 22 6 = mac /\ num f 28 4 = ip.
(** An ICMP echo reply *)
Definition echo_from (ip_to mac ip : N) (f : bytes) : Prop :=
  is_ip f /\ ip_proto f = 1 /\ byte_at f (inside f) = 0 /\ ip_dst f = ip_to /\ eth_src f = mac /\ ip_src f = ip.
(** A TCP segment with SYN and ACK to the port of the scan *)
Definition syn_ack_from (ip_to mac ip port : N) (f : bytes) : Prop :=
  is_ip f /\ ip_proto f = 6 /\ ip_dst f = ip_to /\ port_to f = 61234 /\ N.testbit (tcp_bits f) 1 = true /\ N.testbit (tcp_bits f) 4 = true /\
  eth_src f = mac /\ ip_src f = ip /\ port_from f = port.

(** ** Capture filters (pcap-filter(7)): the part of the language that is used, for frames of Ethernet

    A filter is a list of words; the word "and" separates the primitives. A primitive over the transport header applies to
    frames that have it. *)
Fixpoint primitives (l : list bytes) : list (list bytes) :=
  match l with
  | [] => [[]]
  | w :: r => if beq w (lit "and") then [] :: primitives r else match primitives r with p :: q => (w :: p) :: q | [] => [[w]] end
  end.
Definition number (max : N) (t : bytes) : option N := parse_uint 10 max t.
Definition address (t : bytes) : option N :=
  match map (number 255) (split_on 46 t) with
  | [Some a; Some b; Some c; Some d] => Some (a * 2 ^ 24 + b * 2 ^ 16 + c * 2 ^ 8 + d)
  | _ => None
  end.
(** The words of a primitive, with a number or an address in place of the last one *)
Definition primitive (l : list bytes) : option (bytes -> Prop) :=
  match l with
  | [a] =>
      if beq a (lit "arp") then Some is_arp
      else if beq a (lit "icmp") then Some (fun f => is_ip f /\ ip_proto f = 1)
      else if beq a (lit "tcp") then Some (fun f => is_ip f /\ ip_proto f = 6 \/ num f 12 2 = 34525)
      else None
  | [a; b; c] =>
      if beq a (lit "ether") && beq b (lit "dst") then option_map (fun m f => eth_dst f = m) (mac_parse c)
      else if beq a (lit "ip") && beq b (lit "dst") then option_map (fun x f => is_ip f /\ ip_dst f = x) (address c)
      else if beq a (lit "dst") && beq b (lit "host") then option_map (fun x f => is_ip f /\ ip_dst f = x \/ is_arp f \/ num f 12 2 = 32821) (address c)
      else if beq a (lit "dst") && beq b (lit "port") then option_map (fun p f => is_ip f -> port_to f = p) (number 65535 c)
      else if beq a (lit "icmp[icmptype]") && beq b (lit "=") && beq c (lit "icmp-echoreply")
           then Some (fun f => is_ip f /\ ip_proto f = 1 /\ byte_at f (inside f) = 0)
      else None
  | [a; b; c; d; e] =>
      if beq a (lit "tcp[tcpflags]") && beq b (lit "&") && beq d (lit "!=") && beq e (lit "0") then
        if beq c (lit "tcp-syn") then Some (fun f => is_ip f -> N.testbit (tcp_bits f) 1 = true)
        else if beq c (lit "tcp-ack") then Some (fun f => is_ip f -> N.testbit (tcp_bits f) 4 = true)
        else None
      else None
  | _ => None
  end.
Definition means (filter : bytes) (P : bytes -> Prop) : Prop :=
  exists Qs, map primitive (primitives (split_on 32 filter)) = map Some Qs /\ forall f, P f <-> Forall (fun Q => Q f) Qs.
(** The capture library gives whole frames that match the filter. *)
Definition obeys (air : bytes -> bytes -> list bytes -> capture) : Prop :=
  forall name filter sent f, In f (frames (cp_rounds (air name filter sent))) ->
  wf_bytes f /\ forall P, means filter P -> P f.
(** A frame that arrives while the listener still listens *)
Definition in_time (c : capture) (f : bytes) : Prop :=
  exists pre t1 t2 t3 post, cp_rounds c = pre ++ Rd (Some f) t1 t2 t3 :: post /\
  forall a b, pre = a ++ b -> a <> [] -> ~ exceeded 2000000000 (Some 20000000000) (cp_start c) (cp_start c) a.
(** The capture library works on a device. *)
Definition working (air : bytes -> bytes -> list bytes -> capture) (name : bytes) : Prop :=
  forall filter sent, let c := air name filter sent in cp_open c = true /\ cp_sent c = true /\ ~ In RdError (cp_rounds c).
(** An ARP frame with addresses of other sizes than those of Ethernet and IPv4 *)
Definition odd_arp (f : bytes) : Prop :=
  is_arp f /\ 22 + 2 * byte_at f 18 + 2 * byte_at f 19 <= nlen f /\ (byte_at f 18 <> 6 \/ byte_at f 19 <> 4).
(** The address and mask of a device with a network to scan *)
Definition netted (d : device) : Prop := device_ok d /\ network d < 2 ^ 32 - 1.
(** Frames that are long enough for what they announce *)
Definition whole_arp (f : bytes) : Prop := is_arp f /\ byte_at f 18 = 6 /\ byte_at f 19 = 4 /\ 42 <= nlen f.
Definition whole_ip (f : bytes) : Prop := is_ip f /\ 5 <= byte_at f 14 mod 16 /\ 14 + 4 * (byte_at f 14 mod 16) + 8 <= nlen f.
Definition whole_tcp (f : bytes) : Prop :=
  whole_ip f /\ ip_proto f = 6 /\ 5 <= byte_at f (inside f + 12) / 16 /\ N.of_nat (inside f) + 4 * (byte_at f (inside f + 12) / 16) <= nlen f.
(** The frames of the ICMP and of the TCP scan *)
Definition asks_echo (d : device) (dst : N) (f : bytes) : Prop := exists c1 c2,
  f = everyone ++ be48 (dv_mac d) ++ [8; 0] ++ plain_ip 1 28 c1 (dv_ip d) dst ++ echo_message c2 dst /\
  verifies (plain_ip 1 28 c1 (dv_ip d) dst) /\ verifies (echo_message c2 dst).
Definition asks_port (d : device) (h : (N * N) * N) (f : bytes) : Prop := exists c1 c2,
  f = be48 (fst (fst h)) ++ be48 (dv_mac d) ++ [8; 0] ++ plain_ip 6 40 c1 (dv_ip d) (snd (fst h)) ++ syn_segment c2 (snd h) /\
  verifies (plain_ip 6 40 c1 (dv_ip d) (snd (fst h))) /\ verifies (pseudo_header (dv_ip d) (snd (fst h)) 6 20 ++ syn_segment c2 (snd h)).
(** The ports of cameras (README and src/scanner/discovery.rs) *)
Definition camera_ports : list N := [554; 88; 81; 555; 7447; 8554; 7070; 10554; 80; 6667; 8080; 8081; 8090].
(** The three scans of a device: the frames sent, and filters that let the answers to them pass *)
Record scans (air : bytes -> bytes -> list bytes -> capture) (name : bytes) (d : device) (A I T : capture) (hosts : list (N * N)) : Prop := {
  sw_arp : exists flt P, means flt P /\ (forall f, P f <-> is_arp f /\ eth_dst f = dv_mac d) /\
           A = air name flt (map (arp_query d) (between_addrs (network d) (broadcast d)));
  sw_icmp : exists flt P sent, means flt P /\ (forall f, P f <-> exists mac ip, echo_from (dv_ip d) mac ip f) /\
            Forall2 (asks_echo d) (between_addrs (network d) (broadcast d)) sent /\ I = air name flt sent;
  sw_tcp : exists flt P sent, means flt P /\ (forall f, is_ip f -> (P f <-> exists mac ip port, syn_ack_from (dv_ip d) mac ip port f)) /\
           Forall2 (asks_port d) (list_prod hosts camera_ports) sent /\ T = air name flt sent
}.
(** What the listeners of a device heard about a host *)
Definition arp_heard (d : device) (A : capture) (mac ip : N) : Prop := exists f, In f (frames (cp_rounds A)) /\ arp_from (dv_mac d) mac ip f.
Definition echo_heard (d : device) (I : capture) (mac ip : N) : Prop :=
  exists f, In f (frames (cp_rounds I)) /\ echo_from (dv_ip d) mac ip f /\ N.land ip (dv_mask d) = network d.
Definition port_heard (d : device) (T : capture) (mac ip port : N) : Prop := exists f, In f (frames (cp_rounds T)) /\ syn_ack_from (dv_ip d) mac ip port f.
(** Frames that make a scan panic *)
Definition bad_frame (f : bytes) : Prop := short_ip f \/ short_tcp f \/ odd_arp f.
(** A listener that has not got as far as 20 seconds *)
Definition within_limit (c : capture) : Prop := forall f t1 t2 t3, In (Rd f t1 t2 t3) (cp_rounds c) -> t2 <= cp_start c + 20000000000.
(** One of the three listeners of the scan of a device *)
Definition listener (air : bytes -> bytes -> list bytes -> capture) (name : bytes) (d : device) (c : capture) : Prop :=
  exists A I T hosts, scans air name d A I T hosts /\ (c = A \/ c = I \/ c = T).
