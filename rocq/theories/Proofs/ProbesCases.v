(** Examples for the properties of the probes in time and of their independence. *)
From Coq Require Import String NArith List Bool Lia.
From Verif.Model Require Import Bytes Service Control Http Sdp Discovery Probes.
From Verif.Spec Require Import DiscoverySpec ProbesSpec.
From Verif.Proofs Require Import DiscMaps DiscReport SdpFinal ProbesPf.
Import ListNotations.
Local Open Scope N_scope.
Local Open Scope list_scope.

Definition ip10 : ip := V4 10.
Definition ip11 : ip := V4 11.
Definition at_ (i : ip) (p : N) : saddr := {| sa_ip := i; sa_port := p |}.
Definition ip_is (i : ip) (a : saddr) : bool := if ip_eq_dec (sa_ip a) i then true else false.
Definition code (n : N) : rheader := {| rh_protocol := lit "RTSP"; rh_version := lit "1.0"; rh_code := n; rh_line := []; rh_fields := fields_new |}.

(** Two hosts with RTSP and HTTP ports: the first one is quick, the second one is a tarpit. *)
Definition pair_net : netscan :=
  {| ns_arp := Some [(6, 10); (7, 11)]; ns_icmp := Some []; ns_tcp := fun _ => Some [(6, 10, 554); (7, 11, 554); (7, 11, 80)] |}.
Definition pair_report : scan := find_open_ports [] [([], pair_net)].
Definition pair_describe (now : N) (a : saddr) (p : bytes) : reply (rheader * bytes) :=
  if ip_is ip11 a then None else Some (5, Some (code 401, [])).
Definition pair_get (now : N) (a : saddr) (p : bytes) : reply rheader := if ip_is ip11 a then Some (2000, Some (code 404)) else None.
Definition pair_options (now : N) (a : saddr) : reply unit := if ip_is ip11 a then Some (2000, Some tt) else Some (1, Some tt).
Lemma pair_tarpit : tarpit pair_describe pair_get pair_options ip11.
Proof.
  assert (H : forall a, sa_ip a = ip11 -> ip_is ip11 a = true) by (intros a E; unfold ip_is; rewrite E; reflexivity).
  constructor; intros; unfold pair_describe, pair_get, pair_options; rewrite (H _ H0); [reflexivity|exact Logic.I| |exists (code 404); reflexivity].
  right. split; [reflexivity|]. exists (code 404). split; reflexivity.
Qed.
Lemma pair_ok : scan_ok pair_report.
Proof. exact (proj1 (open_ports_spec [] [([], pair_net)])). Qed.
Lemma pair_ports : has_port pair_report (7, ip11) 554 /\ has_port pair_report (7, ip11) 80.
Proof. split; eexists; (split; [vm_compute; reflexivity|]); vm_compute; auto. Qed.
Lemma pair_times : fst (probes_at false same same same pair_describe pair_get pair_options 0 [lit "/a"; lit "/b"; lit "/c"] [lit "/d"] pair_report) = 12000.
Proof. vm_compute. reflexivity. Qed.

(** Two hosts behind one router *)
Definition some_options (i : ip) (a : saddr) : bool := ip_is i a.
Lemma shared : exists o1 o2 r1 r2,
  (forall a, sa_ip a = ip10 -> o1 a = o2 a) /\
  scan_network false same same same (fun _ _ => None) (fun _ _ => None) o1 [] [] [] [([], two_net)] = ROk r1 /\
  scan_network false same same same (fun _ _ => None) (fun _ _ => None) o2 [] [] [] [([], two_net)] = ROk r2 /\
  (exists k v, service_at r1 k = Some v /\ s_addr v = Some (at_ ip10 554)) /\
  (forall k v, service_at r2 k = Some v -> s_addr v <> Some (at_ ip10 554)).
Proof.
  exists (ip_is ip10), (fun _ => true). eexists. eexists. split; [|split; [vm_compute; reflexivity|split; [vm_compute; reflexivity|split]]].
  - intros a E. unfold ip_is. rewrite E. reflexivity.
  - exists {| i_type := TCP; i_mac := Some 7; i_port := Some 554; i_path := None |}. eexists. split; [vm_compute; reflexivity|reflexivity].
  - intros k v H. unfold service_at in H. apply mget_in in H. cbn [sc_services] in H. destruct H as [H|[H|[]]]; injection H as _ <-; discriminate.
Qed.

(** A description that panics where overflows are checked *)
Lemma panics_all : exists d1 d2 g o rp devices r,
  (forall a q, sa_ip a <> ip11 -> d1 a q = d2 a q) /\
  scan_network true same same same d1 g o rp [] [] devices = ROk r /\
  (exists k v, service_at r k = Some v /\ s_addr v = Some (at_ ip10 554)) /\
  scan_network true same same same d2 g o rp [] [] devices = RPanic.
Proof.
  exists (fun _ _ => None), (fun a _ => if ip_is ip11 a then Some (code 200, big_version) else None), (fun _ _ => None), (fun _ => true), [lit "/"], [([], pair_net)].
  eexists. split; [|split; [vm_compute; reflexivity|split]].
  - intros a q E. unfold ip_is. destruct (ip_eq_dec (sa_ip a) ip11); [contradiction|reflexivity].
  - exists {| i_type := TCP; i_mac := Some 6; i_port := Some 554; i_path := None |}. eexists. split; [vm_compute; reflexivity|reflexivity].
  - vm_compute. reflexivity.
Qed.
