(** Whole scans: an example of a network. *)
From Coq Require Import String NArith ZArith List Bool Lia ZifyBool ZifyNat ZifyN.
From Verif.Model Require Import Bytes Text Mac Service Control Http Sdp Discovery Raw Scan.
From Verif.Spec Require Import RawSpec DiscoverySpec ScanSpec.
From Verif.Proofs Require Import BytesFacts RawParse RawGen DiscReport ScanFrames ScanPf ScanWhole.
Import ListNotations.
Local Open Scope N_scope.
Local Open Scope list_scope.

(** A filter has one meaning. *)
Lemma some_inj : forall {A} (l m : list A), map Some l = map Some m -> l = m.
Proof. intros A. induction l as [|x l IH]; intros [|y m] H; cbn [map] in H; try discriminate H; [reflexivity|]. injection H as <- H. f_equal. now apply IH. Qed.
Lemma means_once : forall t P Q, means t P -> means t Q -> forall f, P f <-> Q f.
Proof. intros t P Q (l & A & B) (m & C & D) f. rewrite A in C. apply some_inj in C. subst m. rewrite B, D. reflexivity. Qed.

(** The device 192.168.1.1/30 *)
Definition ex_dev : device := {| dv_mac := 2199023255553; dv_ip := 3232235777; dv_mask := 4294967292 |}.
Definition ex_name : bytes := lit "eth0".
Lemma ex_netted : netted ex_dev.
Proof. split; [split; [reflexivity|split; reflexivity]|reflexivity]. Qed.
(** An ARP reply from a host *)
Definition arp_says (mac ip : N) : bytes :=
  be48 (dv_mac ex_dev) ++ be48 mac ++ [8; 6; 0; 1; 8; 0; 6; 4; 0; 2] ++ be48 mac ++ be32 ip ++ be48 (dv_mac ex_dev) ++ be32 (dv_ip ex_dev).
(** A SYN-ACK from a port of a host *)
Definition syn_says (mac ip port : N) : bytes :=
  be48 (dv_mac ex_dev) ++ be48 mac ++ [8; 0] ++ plain_ip 6 40 0 ip (dv_ip ex_dev) ++ be16 port ++ be16 61234 ++ [0; 0; 0; 0; 0; 0; 0; 0; 80; 18; 32; 0; 0; 0; 0; 0].
Definition after_that : list round := [Rd None 5000000000 5000000000 5000000000; Rd None 30000000000 30000000000 30000000000].
Definition cap (l : list bytes) : capture :=
  {| cp_open := true; cp_start := 0; cp_sent := true; cp_rounds := map (fun f => Rd (Some f) 1000000000 1000000000 1000000000) l ++ after_that |}.
Definition ex_air (arp tcp : list bytes) (name flt : bytes) (sent : list bytes) : capture :=
  if beq flt (arp_filter ex_dev) then cap arp else if beq flt (tcp_filter ex_dev) then cap tcp else cap [].
Lemma cap_frames : forall l, frames (cp_rounds (cap l)) = l.
Proof. intros l. unfold cap. cbn [cp_rounds]. rewrite frames_app. induction l as [|x l IH]; [reflexivity|]. cbn [map]. rewrite frames_cons. cbn [app]. now rewrite IH. Qed.
Lemma ex_obeys : forall arp tcp, (forall f, In f arp -> wf_bytes f /\ is_arp f /\ eth_dst f = dv_mac ex_dev) -> (forall f, In f tcp -> wf_bytes f /\ tcp_meaning ex_dev f) -> obeys (ex_air arp tcp).
Proof.
  intros arp tcp HA HT name flt sent f. unfold ex_air. destruct (beq flt (arp_filter ex_dev)) eqn:E1; [|destruct (beq flt (tcp_filter ex_dev)) eqn:E2]; rewrite cap_frames.
  - intros I. apply beq_spec in E1. subst flt. destruct (HA f I) as [W H]. split; [exact W|]. intros P M. now apply (means_once _ _ _ M (arp_means ex_dev (proj1 ex_netted)) f).
  - intros I. apply beq_spec in E2. subst flt. destruct (HT f I) as [W H]. split; [exact W|]. intros P M. now apply (means_once _ _ _ M (tcp_means ex_dev (proj1 ex_netted)) f).
  - intros [].
Qed.
Lemma ex_working : forall arp tcp, working (ex_air arp tcp) ex_name.
Proof.
  intros arp tcp flt sent. assert (G : forall l, cp_open (cap l) = true /\ cp_sent (cap l) = true /\ ~ In RdError (cp_rounds (cap l))).
  { intros l. split; [reflexivity|]. split; [reflexivity|]. unfold cap. cbn [cp_rounds]. intros I. apply in_app_or in I. destruct I as [I|I].
    - apply in_map_iff in I. destruct I as (x & H & _). discriminate H.
    - cbn in I. destruct I as [I|[I|[]]]; discriminate I. }
  cbv zeta. unfold ex_air. destruct (beq flt (arp_filter ex_dev)); [apply G|]. destruct (beq flt (tcp_filter ex_dev)); apply G.
Qed.
Lemma ex_late : forall arp tcp name flt sent, ~ within_limit (ex_air arp tcp name flt sent).
Proof.
  intros arp tcp name flt sent. assert (G : forall l, ~ within_limit (cap l)).
  { intros l H. unfold within_limit in H. assert (X : 30000000000 <= 0 + 20000000000); [|lia]. apply (H None 30000000000 30000000000 30000000000). unfold cap. cbn [cp_rounds]. apply in_or_app. right. right. now left. }
  unfold ex_air. destruct (beq flt (arp_filter ex_dev)); [apply G|]. destruct (beq flt (tcp_filter ex_dev)); apply G.
Qed.
Ltac bytes_ok := unfold wf_bytes; vm_compute; repeat (apply Forall_cons; [reflexivity|]); apply Forall_nil.
(** A camera at 192.168.1.2, and a frame that claims to be from 8.8.8.8 *)
Definition cam : N := 2199023255554.
Definition local_ip : N := 3232235778.
Definition foreign_ip : N := 134744072.
Definition own_air := ex_air [arp_says cam local_ip] [syn_says cam local_ip 554].
Definition forged_air := ex_air [] [syn_says cam foreign_ip 554].
Definition odd_frame : bytes :=
  be48 (dv_mac ex_dev) ++ be48 cam ++ [8; 6; 0; 1; 8; 0; 0; 0; 0; 2].
Definition odd_air := ex_air [odd_frame] [].
Lemma own_obeys : obeys own_air.
Proof.
  apply ex_obeys.
  - intros f [<-|[]]. split; [bytes_ok|]. split; reflexivity.
  - intros f [<-|[]]. split; [bytes_ok|]. unfold tcp_meaning. split; [left; split; reflexivity|]. split; [left; split; reflexivity|]. repeat split; reflexivity.
Qed.
Lemma forged_obeys : obeys forged_air.
Proof.
  apply ex_obeys; [intros f []|]. intros f [<-|[]]. split; [bytes_ok|]. unfold tcp_meaning. split; [left; split; reflexivity|]. split; [left; split; reflexivity|]. repeat split; reflexivity.
Qed.
Lemma odd_obeys : obeys odd_air.
Proof. apply ex_obeys; [|intros f []]. intros f [<-|[]]. split; [bytes_ok|]. split; reflexivity. Qed.
Definition ex_devices : list (bytes * device) := [(ex_name, ex_dev)].
Lemma ex_all_netted : forall wl name d, In (name, d) ex_devices -> allowed wl name -> netted d.
Proof. intros wl name d [[= <- <-]|[]] _. exact ex_netted. Qed.
Definition ex_scan air := whole_scan false air (fun x => x) (fun x => x) (fun x => x) (fun _ _ => None) (fun _ _ => None) (fun _ => true) [] [] [] ex_devices.
Lemma own_report : exists r, ex_scan own_air = Gives r /\ has_port r (cam, V4 local_ip) 554 /\ has_flag r (cam, V4 local_ip) 0 /\
  exists i v, service_at r i = Some v /\ s_addr v = Some {| sa_ip := V4 local_ip; sa_port := 554 |}.
Proof.
  destruct (ex_scan own_air) as [| | |r] eqn:E.
  1-3: vm_compute in E; discriminate E.
  exists r. split; [reflexivity|]. vm_compute in E. injection E as <-. split; [|split].
  - eexists. split; [reflexivity|]. now left.
  - eexists. split; reflexivity.
  - exists (to_ident (svc_tcp cam {| sa_ip := V4 local_ip; sa_port := 554 |})). eexists. split; [vm_compute; reflexivity|]. reflexivity.
Qed.
Lemma forged_report : exists r, ex_scan forged_air = Gives r /\ has_port r (cam, V4 foreign_ip) 554 /\
  exists i v, service_at r i = Some v /\ s_addr v = Some {| sa_ip := V4 foreign_ip; sa_port := 554 |}.
Proof.
  destruct (ex_scan forged_air) as [| | |r] eqn:E.
  1-3: vm_compute in E; discriminate E.
  exists r. split; [reflexivity|]. vm_compute in E. injection E as <-. split.
  - eexists. split; [reflexivity|]. now left.
  - exists (to_ident (svc_tcp cam {| sa_ip := V4 foreign_ip; sa_port := 554 |})). eexists. split; [vm_compute; reflexivity|]. reflexivity.
Qed.
(** Nobody was asked: the hosts whose ports are scanned *)
Lemma forged_silent : forall name flt sent f, In f (frames (cp_rounds (forged_air name flt sent))) -> ip_src f = foreign_ip /\ is_ip f.
Proof.
  intros name flt sent f. unfold forged_air, ex_air. destruct (beq flt (arp_filter ex_dev)); [rewrite cap_frames; intros []|]. destruct (beq flt (tcp_filter ex_dev)); rewrite cap_frames; [|intros []].
  intros [<-|[]]. split; reflexivity.
Qed.
Lemma odd_crash : ex_scan odd_air = Crashes /\ odd_arp odd_frame.
Proof. split; [vm_compute; reflexivity|]. split; [reflexivity|]. split; [vm_compute; discriminate|]. left. vm_compute. discriminate. Qed.
Lemma own_in_time : in_time (cap [arp_says cam local_ip]) (arp_says cam local_ip) /\ whole_arp (arp_says cam local_ip) /\
  in_time (cap [syn_says cam local_ip 554]) (syn_says cam local_ip 554) /\ whole_tcp (syn_says cam local_ip 554).
Proof.
  assert (G : forall f, in_time (cap [f]) f).
  { intros f. exists [], 1000000000, 1000000000, 1000000000, after_that. split; [reflexivity|]. intros a b H N. destruct a; [now contradict N|discriminate H]. }
  split; [apply G|]. split; [|split; [apply G|]].
  - split; [reflexivity|]. split; [reflexivity|]. split; [reflexivity|]. vm_compute. discriminate.
  - split; [split; [reflexivity|split; vm_compute; discriminate]|]. split; [reflexivity|]. split; vm_compute; discriminate.
Qed.
