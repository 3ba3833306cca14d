(** Results of scans and the search for streams: src/scanner/result/mod.rs, src/scanner/result/host.rs and
    src/scanner/discovery.rs.

    Hash maps and sets are association lists and lists in the order of iteration; the order of a Rust map is arbitrary,
    so no statement depends on it. The scans of the network, the RTSP and HTTP requests are functions of the environment
    (Section variables). Logging is left out. *)
From Coq Require Import String NArith List Bool.
From Verif.Model Require Import Bytes Alist Service Control Http Sdp.
Import ListNotations.
Local Open Scope N_scope.

(** ** Maps *)
Section Map.
  Context {K V : Type}.
  Variable dec : forall a b : K, {a = b} + {a <> b}.
  Fixpoint mget (k : K) (l : list (K * V)) : option V :=
    match l with
    | [] => None
    | (k', v) :: r => if dec k k' then Some v else mget k r
    end.
  Fixpoint mset (k : K) (v : V) (l : list (K * V)) : list (K * V) :=
    match l with
    | [] => [(k, v)]
    | (k', v') :: r => if dec k k' then (k, v) :: r else (k', v') :: mset k v r
    end.
End Map.

(** ** Scan results *)

(** result/mod.rs:29 *)
Definition hkey : Type := N * ip.
Definition hkey_dec (a b : hkey) : {a = b} + {a <> b}.
Proof. decide equality; [apply ip_eq_dec|apply N.eq_dec]. Defined.
(** result/mod.rs:31-36; the host records are those of Model/Control.v *)
Record scan := { sc_hosts : list (hkey * host); sc_services : list (ident * service) }.
(** result/mod.rs:39-42 *)
Definition scan_new : scan := {| sc_hosts := []; sc_services := [] |}.
(** host.rs:34-42 *)
Definition host_new (mac : N) (i : ip) (flags : N) : host := {| hr_flags := flags; hr_mac := mac; hr_ip := i; hr_ports := [] |}.
(** host.rs:44-47: insertion into a set *)
Definition port_add (l : list N) (p : N) : list N := if existsb (N.eqb p) l then l else l ++ [p].
(** host.rs:44-55 *)
Definition host_add_ports (h : host) (ps : list N) : host :=
  {| hr_flags := hr_flags h; hr_mac := hr_mac h; hr_ip := hr_ip h; hr_ports := fold_left port_add ps (hr_ports h) |}.
Definition host_or_flags (h : host) (f : N) : host :=
  {| hr_flags := N.lor (hr_flags h) f; hr_mac := hr_mac h; hr_ip := hr_ip h; hr_ports := hr_ports h |}.
(** result/mod.rs:44-53 *)
Definition add_host (mac : N) (i : ip) (flags : N) (s : scan) : scan :=
  {| sc_hosts := match mget hkey_dec (mac, i) (sc_hosts s) with
                 | Some h => mset hkey_dec (mac, i) (host_or_flags h flags) (sc_hosts s)
                 | None => mset hkey_dec (mac, i) (host_new mac i flags) (sc_hosts s)
                 end;
     sc_services := sc_services s |}.
(** result/mod.rs:55-67 *)
Definition add_port (mac : N) (i : ip) (port : N) (s : scan) : scan :=
  let h := match mget hkey_dec (mac, i) (sc_hosts s) with Some h => h | None => host_new mac i 0 end in
  {| sc_hosts := mset hkey_dec (mac, i) (host_add_ports h [port]) (sc_hosts s); sc_services := sc_services s |}.
(** result/mod.rs:69-72 *)
Definition add_service (v : service) (s : scan) : scan :=
  {| sc_hosts := sc_hosts s; sc_services := mset ident_eq_dec (to_ident v) v (sc_services s) |}.
(** result/mod.rs:91-98 *)
Definition merge_host (hosts : list (hkey * host)) (e : hkey * host) : list (hkey * host) :=
  match mget hkey_dec (fst e) hosts with
  | Some h => mset hkey_dec (fst e) (host_or_flags (host_add_ports h (hr_ports (snd e))) (hr_flags (snd e))) hosts
  | None => mset hkey_dec (fst e) (snd e) hosts
  end.
(** result/mod.rs:89-101 *)
Definition merge (s o : scan) : scan :=
  {| sc_hosts := fold_left merge_host (sc_hosts o) (sc_hosts s);
     sc_services := fold_left (fun l e => mset ident_eq_dec (fst e) (snd e) l) (sc_services o) (sc_services s) |}.
(** result/mod.rs:74-77 and 104-124 *)
Definition hosts_of (s : scan) : list host := map snd (sc_hosts s).
(** result/mod.rs:84-87 and 132-152 *)
Definition services_of (s : scan) : list service := map snd (sc_services s).

(** The iterator of result/mod.rs:160-199: the hosts left, and the current host with the ports left
    (host.rs:97-130). *)
Record sock_iter := { si_hosts : list host; si_current : option (N * ip * list N) }.
Definition host_addrs (h : host) : N * ip * list N := (hr_mac h, hr_ip h, hr_ports h).
Definition sock_new (s : scan) : sock_iter :=
  match hosts_of s with
  | [] => {| si_hosts := []; si_current := None |}
  | h :: r => {| si_hosts := r; si_current := Some (host_addrs h) |}
  end.
(** result/mod.rs:183-198; recursion over the hosts left *)
Fixpoint sock_next_loop (hosts : list host) (current : option (N * ip * list N)) : option (N * saddr) * sock_iter :=
  match current with
  | None => (None, {| si_hosts := hosts; si_current := None |})
  | Some (mac, i, p :: ps) => (Some (mac, {| sa_ip := i; sa_port := p |}), {| si_hosts := hosts; si_current := Some (mac, i, ps) |})
  | Some (_, _, []) =>
      match hosts with
      | [] => (None, {| si_hosts := []; si_current := None |})
      | h :: r => sock_next_loop r (Some (host_addrs h))
      end
  end.
Definition sock_next (it : sock_iter) : option (N * saddr) * sock_iter := sock_next_loop (si_hosts it) (si_current it).
(** A `for` loop over the iterator; the first argument bounds the number of items, [None]: the bound was reached. *)
Fixpoint sock_collect (fuel : nat) (it : sock_iter) : option (list (N * saddr)) :=
  match fuel with
  | O => None
  | S f => match sock_next it with
           | (None, _) => Some []
           | (Some a, it') => option_map (cons a) (sock_collect f it')
           end
  end.
(** result/mod.rs:79-82; the bound is sufficient (proved) *)
Definition socket_addrs (s : scan) : list (N * saddr) :=
  match sock_collect (S (List.length (flat_map hr_ports (hosts_of s)))) (sock_new s) with Some l => l | None => [] end.

(** ** Services by priority *)

(** discovery.rs:46-50 *)
Definition RTSP_PORTS : list N := [554; 88; 81; 555; 7447; 8554; 7070; 10554; 80; 6667].
Definition HTTP_PORTS : list N := [80; 81; 8080; 8081; 8090].
(** discovery.rs:197-210: [index] counts from zero *)
Fixpoint priorities_from (len index : N) (ports : list N) (m : list (N * N)) : list (N * N) :=
  match ports with
  | [] => m
  | p :: r => priorities_from len (index + 1) r (ainsert p (len - index) m)
  end.
Definition get_port_priorities (ports : list N) : list (N * N) := priorities_from (nlen ports) 0 ports [].
Definition priority (m : list (N * N)) (port : N) : N := match alookup port m with Some v => v | None => 0 end.
(** discovery.rs:595-612: the map from IP addresses to the service kept *)
Definition keep_better (m : list (N * N)) (acc : list (ip * (N * N))) (c : N * saddr) : list (ip * (N * N)) :=
  let i := sa_ip (snd c) in
  let port := sa_port (snd c) in
  match mget ip_eq_dec i acc with
  | Some (_, old) => if priority m old <? priority m port then mset ip_eq_dec i (fst c, port) acc else acc
  | None => mset ip_eq_dec i (fst c, port) acc
  end.
(** discovery.rs:585-621 *)
Definition filter_duplicit (l : list (N * saddr)) (m : list (N * N)) : list (N * saddr) :=
  map (fun e => (fst (snd e), {| sa_ip := fst e; sa_port := snd (snd e) |})) (fold_left (keep_better m) l []).

(** ** Streams *)
Section Streams.
  Variable ovf : bool.
  Variables lossy lc uc : bytes -> bytes.
  (** The response to a DESCRIBE request for an address and a path; nothing if the request cannot be made or fails
      (discovery.rs:686-696, 704). *)
  Variable describe : saddr -> bytes -> option (rheader * bytes).
  (** The header of the response to a GET request (discovery.rs:505-513) *)
  Variable get_header : saddr -> bytes -> option rheader.

  Definition server_value (h : rheader) : option bytes :=
    match last_field lc (lit "server"%string) h with Some f => hf_value f | None => None end.
  (** discovery.rs:707-713 *)
  Definition is_hipcam (h : rheader) : bool :=
    match server_value h with
    | Some v => beq v (lit "HiIpcam/V100R003 VodServer/1.0.0"%string) || beq v (lit "Hipcam RealServer/V1.0"%string)
    | None => false
    end.
  (** discovery.rs:682-705 *)
  Definition get_rtsp_stream_type (a : saddr) (path : bytes) : result stype :=
    match describe a path with
    | None => ROk SError
    | Some (h, body) =>
        if is_hipcam h && negb (beq path (lit "/11"%string)) && negb (beq path (lit "/12"%string)) then ROk SNotFound
        else rtsp_stream_type ovf lossy lc uc (rh_code h) body
    end.
  (** discovery.rs:662-680 *)
  Definition get_rtsp_stream (mac : N) (a : saddr) (path : bytes) : result (option service) :=
    match get_rtsp_stream_type a path with
    | ROk SSupported => ROk (Some (svc_rtsp mac a path))
    | ROk SUnsupported => ROk (Some (svc_unsupported_rtsp mac a path))
    | ROk SLocked => ROk (Some (svc_locked_rtsp mac a None))
    | ROk _ => ROk None
    | RErr => RErr
    | RPanic => RPanic
    end.
  (** discovery.rs:645-659 *)
  Fixpoint rtsp_loop (mac : N) (a : saddr) (paths : list bytes) (res : service) : result service :=
    match paths with
    | [] => ROk res
    | p :: r =>
        match get_rtsp_stream mac a p with
        | ROk (Some v) =>
            match s_type v with
            | RTSP | LockedRTSP => ROk v
            | _ => rtsp_loop mac a r v
            end
        | ROk None => rtsp_loop mac a r res
        | RErr => RErr
        | RPanic => RPanic
        end
    end.
  (** discovery.rs:639-660 *)
  Definition find_rtsp_stream (paths : list bytes) (mac : N) (a : saddr) : result service := rtsp_loop mac a paths (svc_unknown_rtsp mac a).

  (** discovery.rs:750-768 *)
  Definition get_mjpeg_stream (mac : N) (a : saddr) (path : bytes) : option service :=
    match get_header a path with
    | None => None
    | Some h => match mjpeg_stream_type lc h with
                | SSupported => Some (svc_mjpeg mac a path)
                | SLocked => Some (svc_locked_mjpeg mac a None)
                | _ => None
                end
    end.
  (** discovery.rs:735-748 *)
  Fixpoint find_mjpeg_path (paths : list bytes) (mac : N) (a : saddr) : option service :=
    match paths with
    | [] => None
    | p :: r => match get_mjpeg_stream mac a p with Some v => Some v | None => find_mjpeg_path r mac a end
    end.

  (** ** The whole scan *)

  (** Addresses that answer to an OPTIONS request (discovery.rs:484-498) *)
  Variable is_rtsp : saddr -> bool.
  (** discovery.rs:500-503 *)
  Definition is_http (a : saddr) : bool := match get_header a (lit "/"%string) with Some _ => true | None => false end.
  Definition candidate (ports : list N) (a : saddr) : bool := existsb (N.eqb (sa_port a)) ports.
  (** discovery.rs:515-533, 555-583 *)
  Definition find_rtsp_services (l : list (N * saddr)) : list (N * saddr) :=
    filter (fun c => if candidate RTSP_PORTS (snd c) then is_rtsp (snd c) else false) l.
  (** discovery.rs:535-553 *)
  Definition find_http_services (l : list (N * saddr)) : list (N * saddr) :=
    filter (fun c => if candidate HTTP_PORTS (snd c) then is_http (snd c) else false) l.
  (** discovery.rs:623-637: all of them, in order *)
  Fixpoint find_rtsp_streams (paths : list bytes) (l : list (N * saddr)) : result (list service) :=
    match l with
    | [] => ROk []
    | (mac, a) :: r =>
        match find_rtsp_stream paths mac a with
        | ROk v => match find_rtsp_streams paths r with ROk vs => ROk (v :: vs) | RErr => RErr | RPanic => RPanic end
        | RErr => RErr
        | RPanic => RPanic
        end
    end.
  (** discovery.rs:715-733 *)
  Definition find_mjpeg_streams (paths : list bytes) (l : list (N * saddr)) : list service :=
    flat_map (fun c => match find_mjpeg_path paths (fst c) (snd c) with Some v => [v] | None => [] end) l.

  (** The results of the ARP and ICMP scans of a network and of the TCP scan of given hosts; nothing if they fail. *)
  Record netscan := { ns_arp : option (list (N * N)); ns_icmp : option (list (N * N)); ns_tcp : list (N * N) -> option (list (N * N * N)) }.
  Definition v4_hosts (s : scan) : list (N * N) := flat_map (fun h => match hr_ip h with V4 a => [(hr_mac h, a)] | V6 _ => [] end) (hosts_of s).
  (** discovery.rs:318-391; the flags are result/host.rs:21-22 *)
  Definition open_ports_in_network (n : netscan) : option scan :=
    match ns_arp n with
    | None => None
    | Some arp =>
        let s := fold_left (fun s h => add_host (fst h) (V4 (snd h)) 1 s) arp scan_new in
        match ns_icmp n with
        | None => None
        | Some icmp =>
            let s := fold_left (fun s h => add_host (fst h) (V4 (snd h)) 2 s) icmp s in
            match ns_tcp n (v4_hosts s) with
            | None => None
            | Some tcp => Some (fold_left (fun s x => add_port (fst (fst x)) (V4 (snd (fst x))) (snd x) s) tcp s)
            end
        end
    end.
  (** discovery.rs:287-316; the devices with their names *)
  Definition find_open_ports (whitelist : list bytes) (devices : list (bytes * netscan)) : scan :=
    fold_left (fun s d =>
      if match whitelist with [] => true | _ => existsb (beq (fst d)) whitelist end then
        match open_ports_in_network (snd d) with Some r => merge s r | None => s end
      else s) devices scan_new.

  Definition rtsp_chosen (report : scan) : list (N * saddr) := filter_duplicit (find_rtsp_services (socket_addrs report)) (get_port_priorities RTSP_PORTS).
  Definition http_chosen (report : scan) : list (N * saddr) := filter_duplicit (find_http_services (socket_addrs report)) (get_port_priorities HTTP_PORTS).
  (** discovery.rs:93-145 *)
  Definition scan_network (rtsp_paths mjpeg_paths : list bytes) (whitelist : list bytes) (devices : list (bytes * netscan)) : result scan :=
    let report := find_open_ports whitelist devices in
    match find_rtsp_streams rtsp_paths (rtsp_chosen report) with
    | RErr => RErr
    | RPanic => RPanic
    | ROk streams =>
        let r := fold_left (fun r v => add_service v r) streams report in
        let r := fold_left (fun r c => add_service (svc_tcp (fst c) (snd c)) r) (rtsp_chosen report) r in
        let r := fold_left (fun r v => add_service v r) (find_mjpeg_streams mjpeg_paths (http_chosen report)) r in
        ROk (fold_left (fun r c => add_service (svc_http (fst c) (snd c)) r) (http_chosen report) r)
    end.
End Streams.
