(** What a scan of the local networks writes to the log (src/scanner/discovery.rs). The functions follow those of
    Model/Discovery.v; the scans of a network fail with the text of their error here. *)
From Coq Require Import String NArith List Bool.
From Verif.Model Require Import Bytes Alist Service Control Http Sdp Discovery Logger Journal.
Import ListNotations.
Local Open Scope N_scope.

(** The results of the scans of a network, or the texts of their errors (`PcapError`, src/net/raw/pcap/mod.rs:85-89) *)
Record netres := {
  ne_arp : list (N * N) + bytes;
  ne_icmp : list (N * N) + bytes;
  ne_tcp : list (N * N) -> list (N * N * N) + bytes
}.
(** The same without the texts, as in Model/Discovery.v *)
Definition got {A : Type} (r : A + bytes) : option A := match r with inl a => Some a | inr _ => None end.
Definition results (n : netres) : netscan :=
  {| ns_arp := got (ne_arp n); ns_icmp := got (ne_icmp n); ns_tcp := fun hosts => got (ne_tcp n hosts) |}.

(** src/scanner/discovery.rs:324-328, 334-338, 370-374 *)
Definition arp_rec (name : bytes) : jrec := say DEBUG [lit "running ARP scan in local network on interface "%string; name].
Definition icmp_rec (name : bytes) : jrec := say DEBUG [lit "running ICMP echo scan in local network on interface "%string; name].
Definition tcp_rec (name : bytes) : jrec := say DEBUG [lit "running TCP port scan in local network on interface "%string; name].
(** src/scanner/discovery.rs:303-308 *)
Definition unable_rec (name err : bytes) : jrec :=
  say WARN [lit "unable to find open ports in local network on interface "%string; name; lit ": "%string; err].
(** src/scanner/discovery.rs:76-80, `From<PcapError> for DiscoveryError` *)
Definition pcap_error (err : bytes) : bytes := lit "pcap error: "%string ++ err.
(** src/scanner/discovery.rs:522, 542, 630, 722 *)
Definition rtsp_services_rec : jrec := say DEBUG [lit "looking for RTSP services"%string].
Definition http_services_rec : jrec := say DEBUG [lit "looking for HTTP services"%string].
Definition rtsp_streams_rec : jrec := say DEBUG [lit "looking for RTSP streams"%string].
Definition mjpeg_streams_rec : jrec := say DEBUG [lit "looking for MJPEG streams"%string].

(** src/scanner/discovery.rs:318-391 *)
Definition network_log (name : bytes) (n : netres) : (scan + bytes) * list jrec :=
  match ne_arp n with
  | inr err => (inr (pcap_error err), [arp_rec name])
  | inl arp =>
      let s := fold_left (fun s h => add_host (fst h) (V4 (snd h)) 1 s) arp scan_new in
      match ne_icmp n with
      | inr err => (inr (pcap_error err), [arp_rec name; icmp_rec name])
      | inl icmp =>
          let s := fold_left (fun s h => add_host (fst h) (V4 (snd h)) 2 s) icmp s in
          match ne_tcp n (v4_hosts s) with
          | inr err => (inr (pcap_error err), [arp_rec name; icmp_rec name; tcp_rec name])
          | inl tcp =>
              (inl (fold_left (fun s x => add_port (fst (fst x)) (V4 (snd (fst x))) (snd x) s) tcp s),
               [arp_rec name; icmp_rec name; tcp_rec name])
          end
      end
  end.

(** src/scanner/discovery.rs:287-316; the devices with their names *)
Definition device_log (whitelist : list bytes) (st : scan * list jrec) (d : bytes * netres) : scan * list jrec :=
  if match whitelist with [] => true | _ => existsb (beq (fst d)) whitelist end then
    let '(res, l) := network_log (fst d) (snd d) in
    match res with
    | inr err => (fst st, snd st ++ l ++ [unable_rec (fst d) err])
    | inl r => (merge (fst st) r, snd st ++ l)
    end
  else st.
Definition find_open_ports_log (whitelist : list bytes) (devices : list (bytes * netres)) : scan * list jrec :=
  fold_left (device_log whitelist) devices (scan_new, []).

Section DiscLog.
  Variable ovf : bool.
  Variables lossy lc uc : bytes -> bytes.
  Variable describe : saddr -> bytes -> option (rheader * bytes).
  Variable get_header : saddr -> bytes -> option rheader.
  Variable is_rtsp : saddr -> bool.

  (** src/scanner/discovery.rs:93-145: the four records are written when the futures are first polled, before any request is made;
      a panic while the RTSP streams are probed leaves the rest unwritten. *)
  Definition scan_network_log (rtsp_paths mjpeg_paths whitelist : list bytes) (devices : list (bytes * netres)) : result scan * list jrec :=
    let '(report, l) := find_open_ports_log whitelist devices in
    let l := l ++ [rtsp_services_rec] in
    let rtsp_services := rtsp_chosen is_rtsp report in
    let l := l ++ [rtsp_streams_rec] in
    match find_rtsp_streams ovf lossy lc uc describe rtsp_paths rtsp_services with
    | RErr => (RErr, l)
    | RPanic => (RPanic, l)
    | ROk streams =>
        let l := l ++ [http_services_rec] in
        let http_services := http_chosen get_header report in
        let l := l ++ [mjpeg_streams_rec] in
        let r := fold_left (fun r v => add_service v r) streams report in
        let r := fold_left (fun r c => add_service (svc_tcp (fst c) (snd c)) r) rtsp_services r in
        let r := fold_left (fun r v => add_service v r) (find_mjpeg_streams lc get_header mjpeg_paths http_services) r in
        (ROk (fold_left (fun r c => add_service (svc_http (fst c) (snd c)) r) http_services r), l)
    end.
End DiscLog.
