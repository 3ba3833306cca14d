(** Vocabulary of the discovery properties. *)
From Coq Require Import String NArith List Bool.
From Verif.Model Require Import Bytes Service Control Http Sdp Discovery.
Import ListNotations.
Local Open Scope N_scope.

(** ** Scan results as sets *)

(** The flags of a host; nothing if the host is not there *)
Definition host_flags (s : scan) (k : hkey) : option N := option_map hr_flags (mget hkey_dec k (sc_hosts s)).
Definition has_port (s : scan) (k : hkey) (p : N) : Prop := exists h, mget hkey_dec k (sc_hosts s) = Some h /\ In p (hr_ports h).
Definition service_at (s : scan) (i : ident) : option service := mget ident_eq_dec i (sc_services s).
(** What all operations maintain: one record for each host, which knows the host, one entry for each port and one service for
    each identity, which has it *)
Record scan_ok (s : scan) : Prop := {
  ok_hosts : NoDup (map fst (sc_hosts s));
  ok_records : forall k h, In (k, h) (sc_hosts s) -> k = (hr_mac h, hr_ip h) /\ NoDup (hr_ports h);
  ok_services : NoDup (map fst (sc_services s));
  ok_idents : forall i v, In (i, v) (sc_services s) -> i = to_ident v
}.
Definition or_flags (a b : option N) : option N :=
  match a, b with
  | Some x, Some y => Some (N.lor x y)
  | Some x, None => Some x
  | None, y => y
  end.

(** The same content, whatever the order of iteration *)
Definition same_scan (s o : scan) : Prop :=
  (forall k, host_flags s k = host_flags o k) /\ (forall k p, has_port s k p <-> has_port o k p) /\ (forall i, service_at s i = service_at o i).

(** ** Priorities *)

(** The position of a port in the list of ports; all other ports come last. *)
Fixpoint rank (ports : list N) (p : N) : nat :=
  match ports with
  | [] => O
  | q :: r => if p =? q then O else S (rank r p)
  end.
(** The service kept for an address: the first one of the best rank *)
Definition chosen (ports : list N) (l : list (N * saddr)) (c : N * saddr) : Prop :=
  exists a b, l = a ++ c :: b /\
  (forall x, In x a -> sa_ip (snd x) = sa_ip (snd c) -> (rank ports (sa_port (snd c)) < rank ports (sa_port (snd x)))%nat) /\
  (forall x, In x b -> sa_ip (snd x) = sa_ip (snd c) -> (rank ports (sa_port (snd c)) <= rank ports (sa_port (snd x)))%nat).

(** ** Probing of paths, by the type of the stream at each path *)
Definition decisive (t : stype) : Prop := t = SSupported \/ t = SLocked.
(** What is reported for a decisive path *)
Definition stream_at (mac : N) (a : saddr) (path : bytes) (t : stype) : service :=
  match t with SSupported => svc_rtsp mac a path | _ => svc_locked_rtsp mac a None end.

Section Paths.
  Variable ovf : bool.
  Variables lossy lc uc : bytes -> bytes.
  Variable describe : saddr -> bytes -> option (rheader * bytes).
  Variables (mac : N) (a : saddr).
  Let typ := get_rtsp_stream_type ovf lossy lc uc describe a.
  (** A path that does not end the search *)
  Definition idle (q : bytes) : Prop := exists t, typ q = ROk t /\ ~ decisive t.
  (** The result after paths of which none is decisive *)
  Definition settled (paths : list bytes) (res : service) (v : service) : Prop :=
    (exists pre p post, paths = pre ++ p :: post /\ typ p = ROk SUnsupported /\ (forall q, In q post -> typ q <> ROk SUnsupported) /\ v = svc_unsupported_rtsp mac a p)
    \/ ((forall q, In q paths -> typ q <> ROk SUnsupported) /\ v = res).
End Paths.
(** Cameras of a certain kind claim to have a stream at every path. *)
Definition ignored (lc : bytes -> bytes) (h : rheader) (q : bytes) : Prop :=
  (exists f, last_field lc (lit "server") h = Some f /\
             (hf_value f = Some (lit "HiIpcam/V100R003 VodServer/1.0.0") \/ hf_value f = Some (lit "Hipcam RealServer/V1.0"))) /\
  q <> lit "/11" /\ q <> lit "/12".

(** The content types of a playable MJPEG stream *)
Definition mjpeg_type (v : bytes) : Prop :=
  exists t rest, In t [lit "multipart/x-mixed-replace"; lit "image/jpeg"; lit "image/jpg"] /\ v = t ++ rest.
Definition says_mjpeg (lc : bytes -> bytes) (h : rheader) : Prop :=
  exists f v, last_field lc (lit "content-type") h = Some f /\ hf_value f = Some v /\ mjpeg_type (lc v).

(** The services of a report in the order in which they are added *)
Definition all_services (streams : list service) (rtsp : list (N * saddr)) (mjpeg : list service) (http : list (N * saddr)) : list service :=
  streams ++ map (fun c => svc_tcp (fst c) (snd c)) rtsp ++ mjpeg ++ map (fun c => svc_http (fst c) (snd c)) http.

(** ** Scans of networks *)
Definition has_flag (s : scan) (k : hkey) (bit : N) : Prop := exists f, host_flags s k = Some f /\ N.testbit f bit = true.
Definition known (s : scan) (k : hkey) : Prop := host_flags s k <> None.
(** All scans of a network succeed: [hosts] are the hosts whose ports are scanned, each of them once. *)
Record net_result (n : netscan) (arp icmp hosts : list (N * N)) (tcp : list (N * N * N)) : Prop := {
  nr_arp : ns_arp n = Some arp;
  nr_icmp : ns_icmp n = Some icmp;
  nr_once : NoDup hosts;
  nr_hosts : forall mac a, In (mac, a) hosts <-> In (mac, a) arp \/ In (mac, a) icmp;
  nr_tcp : ns_tcp n hosts = Some tcp
}.
(** A network is scanned if there is no list of allowed devices or the device is in the list. *)
Definition allowed (whitelist : list bytes) (name : bytes) : Prop := whitelist = [] \/ In name whitelist.
(** The results of the networks scanned *)
Definition scanned (whitelist : list bytes) (devices : list (bytes * netscan)) (s : scan) : Prop :=
  exists name n, In (name, n) devices /\ allowed whitelist name /\ open_ports_in_network n = Some s.
Definition rtsp_family (t : svc_type) : Prop := In t [RTSP; LockedRTSP; UnsupportedRTSP; UnknownRTSP].
