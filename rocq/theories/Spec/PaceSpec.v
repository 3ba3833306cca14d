(** Devices that answer the frames of a scan, and the pace at which the frames are sent. Times are nanoseconds. *)
From Coq Require Import NArith List Bool.
From Verif.Model Require Import Bytes Raw Scan.
From Verif.Spec Require Import RawSpec ScanSpec.
Import ListNotations.
Local Open Scope N_scope.

(** The clock read in the rounds of a listener does not go back. *)
Fixpoint clocked (now : N) (l : list round) : Prop :=
  match l with
  | [] => True
  | RdError :: r => clocked now r
  | Rd f t1 t2 t3 :: r => (f <> None -> now <= t1 <= t2) /\ now <= t2 <= t3 /\ clocked t3 r
  end.
Definition clocks (air : bytes -> bytes -> list bytes -> capture) : Prop :=
  forall name flt sent, let c := air name flt sent in clocked (cp_start c) (cp_rounds c).
(** Frame [f] is read at the latest [after] nanoseconds after the start of the listener. *)
Definition read_by (c : capture) (f : bytes) (after : N) : Prop :=
  exists t1 t2 t3, In (Rd (Some f) t1 t2 t3) (cp_rounds c) /\ t1 <= cp_start c + after.
(** Frame number [k], from 0, has left [k + 1] times [pace] after the start. A device answers every ARP request for its address
    within [delay], whenever a listener is there that lets the answer pass. *)
Definition answers_arp (air : bytes -> bytes -> list bytes -> capture) (name : bytes) (d : device) (pace delay mac ip : N) : Prop :=
  forall flt P sent k, means flt P -> (forall f, P f <-> is_arp f /\ eth_dst f = dv_mac d) -> nth_error sent k = Some (arp_query d ip) ->
  exists f, arp_from (dv_mac d) mac ip f /\ whole_arp f /\ read_by (air name flt sent) f ((N.of_nat k + 1) * pace + delay).
(** It accepts every connection to one of its ports. *)
Definition answers_port (air : bytes -> bytes -> list bytes -> capture) (name : bytes) (d : device) (pace delay mac ip port : N) : Prop :=
  forall flt P sent k q, means flt P -> (forall f, is_ip f -> (P f <-> exists m i p, syn_ack_from (dv_ip d) m i p f)) ->
  nth_error sent k = Some q -> asks_port d ((mac, ip), port) q ->
  exists f, syn_ack_from (dv_ip d) mac ip port f /\ whole_tcp f /\ read_by (air name flt sent) f ((N.of_nat k + 1) * pace + delay).
