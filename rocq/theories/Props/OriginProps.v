(** C135: through the client a server reaches only what was configured or answered a scan.

    A table starts as [t]; the services [fixed] of the command line and the results of the scans [ns] are put into
    it, in any order. [es] is any sequence of events on a connection that looks at this table at any moments. *)
From Coq Require Import NArith ZArith List Bool.
From Verif.Model Require Import Bytes Frame Service Control Raw Scan Alist SvcTable Session Manager Client Config.
From Verif.Spec Require Import ControlSpec ManagerSpec ClientSpec TableSpec ConfigSpec ReachSpec RawSpec DiscoverySpec ScanSpec OriginSpec.
From Verif.Proofs Require Import TableProofs TableCases ClientPropsPf2 ScanCases OriginPf OriginCases.
Import ListNotations.
Local Open Scope N_scope.

(** A connection is opened only for a gateway or to the host itself, and only to an address that was in the table
    at the start, was configured, or sent a SYN-ACK and answered in RTSP or HTTP during a scan. *)
Theorem C135_origin :
  forall (hash : ident -> N) (t : table) (fixed : list service) (ns : list scanning) (os : list top) (t0 : Z) (i : identity)
         (v1 v2 : view) (es : list kev) (k : conn) (h h1 h2 : list cobs) (sid : N) (ty : svc_type) (mac : N) (a : saddr),
    consistent t -> lives fixed ns os -> Forall real ns -> Forall built fixed -> Forall (looks_at (moment hash t os)) es ->
    connection t0 i v1 v2 es = (k, h) -> bytes_received h -> h = h1 ++ XMgr (OOpen sid ty mac a) :: h2 ->
    (id_gateway i = true \/ loopback (sa_ip a)) /\
    ((exists id s, stored t id = Some s /\ s_addr s = Some a) \/
     (exists s, In s fixed /\ s_addr s = Some a) \/
     exists n d, In n ns /\ answered n d a).
Proof. exact connect_origin. Qed.
Print Assumptions C135_origin.

(** If nobody sends frames with foreign source addresses, what was found by scans is in the network of a device. *)
Theorem C135_local_partial :
  forall (hash : ident -> N) (t : table) (fixed : list service) (ns : list scanning) (os : list top) (t0 : Z) (i : identity)
         (v1 v2 : view) (es : list kev) (k : conn) (h h1 h2 : list cobs) (sid : N) (ty : svc_type) (mac : N) (a : saddr),
    consistent t -> lives fixed ns os -> Forall real ns -> Forall no_strangers ns -> Forall built fixed ->
    Forall (looks_at (moment hash t os)) es ->
    connection t0 i v1 v2 es = (k, h) -> bytes_received h -> h = h1 ++ XMgr (OOpen sid ty mac a) :: h2 ->
    (exists id s, stored t id = Some s /\ s_addr s = Some a) \/
    (exists s, In s fixed /\ s_addr s = Some a) \/
    exists n name d ip, In n ns /\ In (name, d) (n_devices n) /\ sa_ip a = V4 ip /\ N.land ip (dv_mask d) = network d.
Proof. exact connect_local. Qed.
Print Assumptions C135_local_partial.

(** A camera at 192.168.1.2 is found and then asked for. *)
Example C135_case :
  real (scan_with own_air) /\ no_strangers (scan_with own_air) /\
  lives [] [scan_with own_air] (scan_ops own_air) /\ Forall (looks_at (moment hash0 (table_new 0) (scan_ops own_air))) (ask own_air) /\
  exists k h h1 h2 ty, connection 0 race_id (view_of (filled own_air)) (view_of (filled own_air)) (ask own_air) = (k, h) /\ bytes_received h /\
    h = h1 ++ XMgr (OOpen 7 ty ScanCases.cam {| sa_ip := V4 local_ip; sa_port := 554 |}) :: h2.
Proof. exact (conj (scan_real _ own_obeys) (conj own_local (origin_case own_air local_ip (or_introl (conj eq_refl eq_refl))))). Qed.

(** One forged SYN-ACK makes the client connect a server to an address outside of every network it scanned. *)
Theorem C135_local_refuted :
  exists (hash : ident -> N) (ns : list scanning) (os : list top) (i : identity) (v : view) (es : list kev) (k : conn) (h h1 h2 : list cobs)
         (sid : N) (ty : svc_type) (mac ip port : N),
    lives [] ns os /\ Forall real ns /\ Forall (looks_at (moment hash (table_new 0) os)) es /\
    connection 0 i v v es = (k, h) /\ bytes_received h /\ h = h1 ++ XMgr (OOpen sid ty mac {| sa_ip := V4 ip; sa_port := port |}) :: h2 /\
    forall n name d, In n ns -> In (name, d) (n_devices n) -> N.land ip (dv_mask d) <> network d.
Proof. exact remote_case. Qed.
Print Assumptions C135_local_refuted.
