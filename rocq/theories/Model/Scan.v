(** A whole scan of the local networks, from the devices to the report: the scanners of src/net/raw/arp.rs, icmp.rs and tcp.rs,
    `Scanner::sr` of src/net/raw/pcap/mod.rs and their use in src/scanner/discovery.rs.

    The network is a function [air]: what the listener on a device gets may depend on its filter and on all the frames that
    are sent while it listens. The interleaving of the two threads of `sr` is in Capture.v, here only its result matters. *)
From Coq Require Import String NArith List Bool.
From Verif.Model Require Import Bytes Text Mac Service Control Http Sdp Discovery Raw.
Import ListNotations.
Local Open Scope N_scope.
Local Open Scope list_scope.

(** Not finished yet, a panic, an error or a result *)
Inductive outcome (A : Type) : Type := Waits | Crashes | Fails | Gives (a : A).
Arguments Waits {A}.
Arguments Crashes {A}.
Arguments Fails {A}.
Arguments Gives {A} _.
Definition and_then {A B} (o : outcome A) (f : A -> outcome B) : outcome B :=
  match o with Gives a => f a | Waits => Waits | Crashes => Crashes | Fails => Fails end.
Definition of_result {A} (r : result A) : outcome A := match r with ROk a => Gives a | RErr => Fails | RPanic => Crashes end.

(** What happens during one call of `sr`: whether the listener can be started, when it was started, its rounds, and whether
    all frames can be sent *)
Record capture := { cp_open : bool; cp_start : N; cp_rounds : list round; cp_sent : bool }.
(** The limits of arp.rs:274-275, icmp.rs:291-292 and tcp.rs:390-391, in nanoseconds *)
Definition SOFT : N := 2000000000.
Definition HARD : N := 20000000000.
(** pcap/mod.rs:249-278: an error of the sender comes first, a panic of the listener is passed on by `unwrap` *)
Definition sr (c : capture) : outcome (list packet) :=
  if cp_sent c then
    if cp_open c then
      match listen SOFT (Some HARD) (cp_start c) (cp_start c) (cp_rounds c) [] with
      | Running => Waits
      | Stopped l => Gives l
      | Failed => Fails
      | Crashed => Crashes
      end
    else Fails
  else Fails.

(** `Display for Ipv4Addr` of the standard library *)
Definition dotted (a : N) : bytes := join [46] (map print_dec (to_be 4 a)).
(** arp.rs:269 *)
Definition arp_filter (d : device) : bytes := lit "arp and ether dst "%string ++ mac_print (dv_mac d).
(** icmp.rs:283-287 *)
Definition icmp_filter (d : device) : bytes := lit "icmp and icmp[icmptype] = icmp-echoreply and ip dst "%string ++ dotted (dv_ip d).
(** tcp.rs:380-386 *)
Definition tcp_filter (d : device) : bytes :=
  lit "tcp and dst host "%string ++ dotted (dv_ip d) ++ lit " and dst port "%string ++ print_dec SPORT
  ++ lit " and tcp[tcpflags] & tcp-syn != 0 and tcp[tcpflags] & tcp-ack != 0"%string.

(** The frames of a generator; `serialize(..).unwrap()` *)
Fixpoint serialized (ovf : bool) (l : list packet) : result (list bytes) :=
  match l with
  | [] => ROk []
  | p :: r => match packet_bytes ovf p with
              | ROk b => bind (serialized ovf r) (fun bs => ROk (b :: bs))
              | _ => RPanic
              end
  end.
(** arp.rs:234-267 and icmp.rs:249-281: all addresses of the network; the bound of the number of calls is sufficient (proved) *)
Definition targets (ovf : bool) (d : device) : result (list N) :=
  bind (first_address ovf d) (fun first =>
  match collect (S (N.to_nat (end_address d - first))) (next_address (end_address d)) first with Some l => ROk l | None => RErr end).
(** discovery.rs:169-174: all ports, in some order *)
Definition PORT_CANDIDATES : list N := fold_left port_add (RTSP_PORTS ++ HTTP_PORTS) [].

Section Scan.
  Variable ovf : bool.
  (** The name of the device, the filter and the frames sent *)
  Variable air : bytes -> bytes -> list bytes -> capture.

  (** A call of `sr` with the packets of a generator *)
  Definition exchange (name filter : bytes) (l : result (list packet)) : outcome (list packet) :=
    and_then (of_result (bind l (serialized ovf))) (fun sent => sr (air name filter sent)).
  (** arp.rs:228-290 *)
  Definition arp_scan (name : bytes) (d : device) : outcome (list (N * N)) :=
    and_then (exchange name (arp_filter d) (bind (targets ovf d) (fun l => ROk (map (arp_request d) l)))) (fun l => of_result (arp_hosts l)).
  (** icmp.rs:244-315 *)
  Definition icmp_scan (name : bytes) (d : device) : outcome (list (N * N)) :=
    and_then (exchange name (icmp_filter d) (bind (targets ovf d) (fun l => ROk (map (icmp_request d) l)))) (fun l => Gives (icmp_hosts d l)).
  (** tcp.rs:368-412 and discovery.rs:359-391; the number of steps of the generator is sufficient (proved) *)
  Definition tcp_scan (name : bytes) (d : device) (hosts : list (N * N)) : outcome (list (N * N * N)) :=
    let c := map Single PORT_CANDIDATES in
    and_then (exchange name (tcp_filter d) (tcp_generate (S (length c + length hosts * S (length c))) ovf d c hosts (ports_iter c)))
      (fun l => Gives (tcp_services l)).

  (** discovery.rs:318-357: the results of the three scans of a network. The scan ends with the first error, which is logged
      (discovery.rs:300-308). *)
  Definition no_net : netscan := {| ns_arp := None; ns_icmp := None; ns_tcp := fun _ => None |}.
  Definition net_of (name : bytes) (d : device) : outcome netscan :=
    match
      and_then (arp_scan name d) (fun arp =>
      and_then (icmp_scan name d) (fun icmp =>
      let s := fold_left (fun s h => add_host (fst h) (V4 (snd h)) 1 s) arp scan_new in
      let s := fold_left (fun s h => add_host (fst h) (V4 (snd h)) 2 s) icmp s in
      and_then (tcp_scan name d (v4_hosts s)) (fun tcp =>
      Gives {| ns_arp := Some arp; ns_icmp := Some icmp; ns_tcp := fun _ => Some tcp |})))
    with
    | Fails => Gives no_net
    | o => o
    end.
  (** discovery.rs:287-316: the devices allowed, in order *)
  Fixpoint nets (whitelist : list bytes) (devices : list (bytes * device)) : outcome (list (bytes * netscan)) :=
    match devices with
    | [] => Gives []
    | (name, d) :: r =>
        and_then (if match whitelist with [] => true | _ => existsb (beq name) whitelist end then net_of name d else Gives no_net) (fun n =>
        and_then (nets whitelist r) (fun l => Gives ((name, n) :: l)))
    end.

  Variables lossy lc uc : bytes -> bytes.
  Variable describe : saddr -> bytes -> option (rheader * bytes).
  Variable get_header : saddr -> bytes -> option rheader.
  Variable is_rtsp : saddr -> bool.
  (** discovery.rs:91-145 *)
  Definition whole_scan (rtsp_paths mjpeg_paths whitelist : list bytes) (devices : list (bytes * device)) : outcome scan :=
    and_then (nets whitelist devices) (fun l =>
    of_result (scan_network ovf lossy lc uc describe get_header is_rtsp rtsp_paths mjpeg_paths whitelist l)).
End Scan.
