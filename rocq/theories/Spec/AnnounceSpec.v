(** A camera that answers, and a report that is merged into a service table. *)
From Coq Require Import NArith ZArith List Bool.
From Verif.Model Require Import Bytes Service Control Http Sdp Discovery Raw Scan SvcTable.
From Verif.Spec Require Import ControlSpec RawSpec DiscoverySpec ScanSpec PaceSpec OriginSpec CurrentSpec.
Import ListNotations.
Local Open Scope N_scope.

Definition at_port (ip port : N) : saddr := {| sa_ip := V4 ip; sa_port := port |}.
(** The ports at which RTSP and HTTP servers are looked for, the preferred ones first *)
Definition rtsp_ports : list N := [554; 88; 81; 555; 7447; 8554; 7070; 10554; 80; 6667].
Definition http_ports : list N := [80; 81; 8080; 8081; 8090].

(** The answer to DESCRIBE for path [q] decides what is reported for the server at address [a]: *)
Definition plays (n : scanning) (a : saddr) (q : bytes) : Prop :=
  exists h body, n_describe n a q = Some (h, body) /\ ~ ignored (n_lc n) h q /\ rh_code h = 200 /\
    is_supported_rtsp false (n_lossy n) (n_lc n) (n_uc n) body = ROk true.
Definition locked (n : scanning) (a : saddr) (q : bytes) : Prop :=
  exists h body, n_describe n a q = Some (h, body) /\ ~ ignored (n_lc n) h q /\ rh_code h = 401.
(** [path] is the first path in the list of paths at which there is a stream that can be played, and none before it asks for a
    password. *)
Definition first_playing (n : scanning) (a : saddr) (path : bytes) : Prop :=
  exists pre post, n_rtsp_paths n = pre ++ path :: post /\ plays n a path /\ forall q, In q pre -> ~ plays n a q /\ ~ locked n a q.
(** The same for MJPEG over HTTP, from the header of the response *)
Definition shows (n : scanning) (a : saddr) (q : bytes) : Prop :=
  exists h, n_header n a q = Some h /\ rh_code h = 200 /\ says_mjpeg (n_lc n) h.
Definition refuses (n : scanning) (a : saddr) (q : bytes) : Prop := exists h, n_header n a q = Some h /\ rh_code h = 401.
Definition first_showing (n : scanning) (a : saddr) (path : bytes) : Prop :=
  exists pre post, n_mjpeg_paths n = pre ++ path :: post /\ shows n a path /\ forall q, In q pre -> ~ shows n a q /\ ~ refuses n a q.

(** Host [mac], [ip] of the network of device [d] answers within [delay] when it is asked for its hardware address, and at
    [port]; [speaks] holds there and at no port that is preferred. *)
Record serves (n : scanning) (name : bytes) (d : device) (pace delay mac ip port : N) (ports : list N) (speaks : saddr -> Prop) : Prop := {
  sv_inside : network d < ip < broadcast d;
  sv_arp : answers_arp (n_air n) name d pace delay mac ip;
  sv_port : answers_port (n_air n) name d pace delay mac ip port;
  sv_speaks : speaks (at_port ip port);
  sv_first : exists before after, ports = before ++ port :: after /\ forall q, In q before -> ~ speaks (at_port ip q)
}.
Definition rtsp_camera (n : scanning) (name : bytes) (d : device) (pace delay mac ip port : N) (path : bytes) : Prop :=
  serves n name d pace delay mac ip port rtsp_ports (fun a => n_rtsp n a = true) /\ first_playing n (at_port ip port) path.
Definition http_camera (n : scanning) (name : bytes) (d : device) (pace delay mac ip port : N) (path : bytes) : Prop :=
  serves n name d pace delay mac ip port http_ports (fun a => n_header n a [47] <> None) /\ first_showing n (at_port ip port) path.

(** Hardware addresses and IP addresses belong together. *)
Definition paired (r : scan) : Prop :=
  forall mac1 i1 mac2 i2, known r (mac1, i1) -> known r (mac2, i2) -> (mac1 = mac2 <-> i1 = i2).
(** All frames of the scan leave within two seconds, and there is time for the answer to the last one. *)
Definition fast (d : device) (r : scan) (pace delay : N) : Prop :=
  (broadcast d - network d - 1) * pace + delay <= 2000000000 /\ nlen (hosts_of r) * 13 * pace + delay <= 2000000000.
(** The paths to try are texts without NUL. *)
Definition clean_paths (n : scanning) : Prop :=
  forall p, In p (n_rtsp_paths n) \/ In p (n_mjpeg_paths n) -> wf_bytes p /\ no_nul p.

(** Scan [n], with report [r], of a network in which this works: device [d] is used and works, and the scan is fast. *)
Definition well_scanned (n : scanning) (name : bytes) (d : device) (pace delay : N) (r : scan) : Prop :=
  real n /\ clean_paths n /\ result_of n = Gives r /\ clocks (n_air n) /\ paired r /\ In (name, d) (n_devices n) /\
  allowed (n_whitelist n) name /\ working (n_air n) name /\ fast d r pace delay.

(** The services of a report are added to the table, each with the time. *)
Definition merged (l : list (Z * service)) : list happening := map (fun p => HTable (TAdd (fst p) (snd p))) l.
