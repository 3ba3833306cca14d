(** What the log says about the networks that are scanned, written without the functions that make the records. *)
From Coq Require Import String NArith List Bool.
From Verif.Model Require Import Bytes Service Control Discovery Logger Journal DiscLog.
From Verif.Spec Require Import DiscoverySpec.
Import ListNotations.
Local Open Scope N_scope.

Definition debug (text : bytes) : jrec := {| j_sev := DEBUG; j_text := text |}.
Definition running (what name : bytes) : jrec := debug (lit "running "%string ++ what ++ lit " scan in local network on interface "%string ++ name).
Definition arp_runs : bytes -> jrec := running (lit "ARP"%string).
Definition icmp_runs : bytes -> jrec := running (lit "ICMP echo"%string).
Definition tcp_runs : bytes -> jrec := running (lit "TCP port"%string).
Definition unable (name err : bytes) : jrec :=
  {| j_sev := WARN;
     j_text := lit "unable to find open ports in local network on interface "%string ++ name ++ lit ": pcap error: "%string ++ err |}.

(** The hosts found: each once *)
Definition found_hosts (arp icmp hosts : list (N * N)) : Prop :=
  NoDup hosts /\ forall mac a, In (mac, a) hosts <-> In (mac, a) arp \/ In (mac, a) icmp.
(** The first scan of a network that fails, with the text of its error *)
Inductive fails (n : netres) : bytes -> Prop :=
| fails_arp err : ne_arp n = inr err -> fails n err
| fails_icmp arp err : ne_arp n = inl arp -> ne_icmp n = inr err -> fails n err
| fails_tcp arp icmp hosts err :
    ne_arp n = inl arp -> ne_icmp n = inl icmp -> found_hosts arp icmp hosts -> ne_tcp n hosts = inr err -> fails n err.

(** The records of one network: one for each scan that is begun, and a warning for the one that fails *)
Inductive told (name : bytes) (n : netres) : list jrec -> Prop :=
| told_arp err : ne_arp n = inr err -> told name n [arp_runs name; unable name err]
| told_icmp arp err : ne_arp n = inl arp -> ne_icmp n = inr err -> told name n [arp_runs name; icmp_runs name; unable name err]
| told_tcp arp icmp hosts err :
    ne_arp n = inl arp -> ne_icmp n = inl icmp -> found_hosts arp icmp hosts -> ne_tcp n hosts = inr err ->
    told name n [arp_runs name; icmp_runs name; tcp_runs name; unable name err]
| told_all arp icmp hosts tcp :
    ne_arp n = inl arp -> ne_icmp n = inl icmp -> found_hosts arp icmp hosts -> ne_tcp n hosts = inl tcp ->
    told name n [arp_runs name; icmp_runs name; tcp_runs name].
(** The records of all networks, in the order of the devices *)
Inductive networks_told (whitelist : list bytes) : list (bytes * netres) -> list jrec -> Prop :=
| told_nothing : networks_told whitelist [] []
| told_skipped name n ds l :
    ~ allowed whitelist name -> networks_told whitelist ds l -> networks_told whitelist ((name, n) :: ds) l
| told_network name n r ds l :
    allowed whitelist name -> told name n r -> networks_told whitelist ds l -> networks_told whitelist ((name, n) :: ds) (r ++ l).

(** The devices as Model/Discovery.v has them *)
Definition plain_devices (ds : list (bytes * netres)) : list (bytes * netscan) := map (fun d => (fst d, results (snd d))) ds.
(** The last records of a scan that returns, and of one that panics *)
Definition looking (what : bytes) : jrec := debug (lit "looking for "%string ++ what).
Definition looked_for : list jrec :=
  map looking [lit "RTSP services"%string; lit "RTSP streams"%string; lit "HTTP services"%string; lit "MJPEG streams"%string].
