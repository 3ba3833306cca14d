(** From what was configured and heard to the connections a server can ask for. *)
From Coq Require Import NArith ZArith List Bool.
From Verif.Model Require Import Bytes Service Control Http Discovery Raw Scan SvcTable.
From Verif.Spec Require Import RawSpec DiscoverySpec ScanSpec.
Import ListNotations.
Local Open Scope N_scope.

(** One scan: what can be heard and what the devices answer during it *)
Record scanning := {
  n_air : bytes -> bytes -> list bytes -> capture;
  n_lossy : bytes -> bytes;
  n_lc : bytes -> bytes;
  n_uc : bytes -> bytes;
  n_describe : saddr -> bytes -> option (rheader * bytes);
  n_header : saddr -> bytes -> option rheader;
  n_rtsp : saddr -> bool;
  n_rtsp_paths : list bytes;
  n_mjpeg_paths : list bytes;
  n_whitelist : list bytes;
  n_devices : list (bytes * device)
}.
Definition result_of (n : scanning) : outcome scan :=
  whole_scan false (n_air n) (n_lossy n) (n_lc n) (n_uc n) (n_describe n) (n_header n) (n_rtsp n)
    (n_rtsp_paths n) (n_mjpeg_paths n) (n_whitelist n) (n_devices n).
(** The capture library keeps to its filters, and the devices used have networks. *)
Definition real (n : scanning) : Prop :=
  obeys (n_air n) /\ forall name d, In (name, d) (n_devices n) -> allowed (n_whitelist n) name -> netted d.

(** What happens to a service table: the services of the command line are added, and after each scan the services found. *)
Inductive lives (fixed : list service) : list scanning -> list top -> Prop :=
| lives_none : lives fixed [] []
| lives_fixed now s ns os : lives fixed ns os -> In s fixed -> lives fixed ns (os ++ [TAddStatic now s])
| lives_scan n r l now ns os : lives fixed ns os -> result_of n = Gives r -> map snd l = services_of r ->
    lives fixed (ns ++ [n]) (os ++ map (fun p : Z * service => TAdd (fst p) (snd p)) l ++ [TRefresh now]).

(** During scan [n] a listener for TCP frames on one of its devices, [d], heard address [a] accept a connection, and something at
    that address answered in RTSP or HTTP. *)
Definition answered (n : scanning) (d : device) (a : saddr) : Prop :=
  exists name A I T hosts mac ip port, In (name, d) (n_devices n) /\ allowed (n_whitelist n) name /\
    scans (n_air n) name d A I T hosts /\ a = {| sa_ip := V4 ip; sa_port := port |} /\ port_heard d T mac ip port /\
    (n_rtsp n a = true \/ n_header n a [47] <> None).

(** All IPv4 frames heard on a device during a scan come from its network. *)
Definition no_strangers (n : scanning) : Prop :=
  forall name d flt sent f, In (name, d) (n_devices n) -> In f (frames (cp_rounds (n_air n name flt sent))) -> is_ip f ->
    N.land (ip_src f) (dv_mask d) = network d.
