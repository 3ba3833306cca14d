(** Whole scans: from the scans of the devices to the report. *)
From Coq Require Import String NArith ZArith List Bool Lia ZifyBool ZifyNat ZifyN.
From Verif.Model Require Import Bytes Text Mac Service Control Http Sdp Discovery Raw Scan.
From Verif.Spec Require Import RawSpec DiscoverySpec ScanSpec.
From Verif.Proofs Require Import BytesFacts RawParse RawGen DiscReport ScanFrames ScanPf.
Import ListNotations.
Local Open Scope N_scope.
Local Open Scope list_scope.

Section Whole.
  Variable ovf : bool.
  Variable air : bytes -> bytes -> list bytes -> capture.
  Hypothesis OB : obeys air.

  Definition arp_cap (name : bytes) (d : device) : capture := air name (arp_filter d) (map (arp_query d) (between_addrs (network d) (broadcast d))).
  Lemma scans_make : forall name d si st hosts, netted d -> Forall2 (asks_echo d) (between_addrs (network d) (broadcast d)) si ->
    Forall2 (asks_port d) (list_prod hosts camera_ports) st -> scans air name d (arp_cap name d) (air name (icmp_filter d) si) (air name (tcp_filter d) st) hosts.
  Proof using.
    clear OB. intros name d si st hosts [DO _] Fi Ft. split.
    - exists (arp_filter d). eexists. split; [exact (arp_means d DO)|]. split; [reflexivity|reflexivity].
    - exists (icmp_filter d). eexists. exists si. split; [exact (icmp_means d DO)|]. split; [|auto]. intros f. cbv beta. unfold echo_from. split.
      + intros ((A & B) & (_ & _ & C) & _ & D). exists (eth_src f), (ip_src f). repeat split; assumption.
      + intros (mac & ip & A & B & C & D & _). repeat split; assumption.
    - exists (tcp_filter d). eexists. exists st. split; [exact (tcp_means d DO)|]. split; [|auto]. intros f IP. unfold tcp_meaning, syn_ack_from, is_arp. unfold is_ip in *. rewrite IP. split.
      + intros (A & B & C & D & E). exists (eth_src f), (ip_src f), (port_from f). destruct A as [[_ A]|A]; [|discriminate]. destruct B as [[_ B]|[B|B]]; [|discriminate|discriminate]. repeat split; auto.
      + intros (mac & ip & p & _ & A & B & C & D & E & _). repeat split; auto.
  Qed.
  Lemma arp_listener : forall name d, netted d -> listener air name d (arp_cap name d).
  Proof using OB.
    intros name d ND. destruct (icmp_spec false air OB name d ND) as (si & Fi & _). destruct (tcp_spec false air OB name d [] (proj1 ND) (Forall_nil _)) as (st & Ft & _).
    exists (arp_cap name d), (air name (icmp_filter d) si), (air name (tcp_filter d) st), []. split; [now apply scans_make|now left].
  Qed.
  Lemma icmp_listener : forall name d si, netted d -> Forall2 (asks_echo d) (between_addrs (network d) (broadcast d)) si -> listener air name d (air name (icmp_filter d) si).
  Proof using OB.
    intros name d si ND Fi. destruct (tcp_spec false air OB name d [] (proj1 ND) (Forall_nil _)) as (st & Ft & _).
    exists (arp_cap name d), (air name (icmp_filter d) si), (air name (tcp_filter d) st), []. split; [now apply scans_make|right; now left].
  Qed.

  (** What a device contributes *)
  Record gathered (name : bytes) (d : device) (n : netscan) (A I T : capture) (hosts arp icmp : list (N * N)) (tcp : list (N * N * N)) : Prop := {
    ga_scans : scans air name d A I T hosts;
    ga_result : net_result n arp icmp hosts tcp;
    ga_some : exists s, open_ports_in_network n = Some s;
    ga_const : ns_tcp n = fun _ => Some tcp;
    ga_arp : forall mac ip, In (mac, ip) arp -> arp_heard d A mac ip;
    ga_icmp : forall mac ip, In (mac, ip) icmp -> echo_heard d I mac ip;
    ga_tcp : forall mac ip p, In (mac, ip, p) tcp -> port_heard d T mac ip p;
    ga_arp_all : forall f, in_time A f -> whole_arp f -> In (num f 22 6, num f 28 4) arp;
    ga_icmp_all : forall f, in_time I f -> whole_ip f -> N.land (ip_src f) (dv_mask d) = network d -> In (eth_src f, ip_src f) icmp;
    ga_tcp_all : forall f, in_time T f -> whole_tcp f -> In (eth_src f, ip_src f, port_from f) tcp
  }.
  Lemma hosts_of_net : forall arp icmp, NoDup (v4_hosts (discovered arp icmp)) /\ forall mac a, In (mac, a) (v4_hosts (discovered arp icmp)) <-> In (mac, a) arp \/ In (mac, a) icmp.
  Proof using.
    clear. intros arp icmp. pose proof (discovered_ok arp icmp) as O. split; [now apply v4_nodup|]. intros mac a. rewrite (v4_in _ O). unfold known. rewrite discovered_flags. apply flags_known.
  Qed.
  Lemma net_spec : forall name d, netted d ->
    match net_of ovf air name d with
    | Waits => exists c, listener air name d c /\ within_limit c
    | Crashes => exists c, listener air name d c /\ spoiled c
    | Fails => False
    | Gives n => n = no_net /\ ~ working air name \/ exists A I T hosts arp icmp tcp, gathered name d n A I T hosts arp icmp tcp
    end.
  Proof using OB.
    intros name d ND. unfold net_of. pose proof (arp_spec ovf air OB name d ND) as SA. cbv zeta in SA. fold (arp_cap name d) in SA.
    destruct (icmp_spec ovf air OB name d ND) as (si & Fi & SI). cbv zeta in SI. pose proof (arp_listener name d ND) as LA. pose proof (icmp_listener name d si ND Fi) as LI.
    destruct (arp_scan ovf air name d) as [| | |arp]; cbn [and_then]; [eauto|eauto|left; auto|].
    destruct (icmp_scan ovf air name d) as [| | |icmp]; cbn [and_then]; [eauto|eauto|left; auto|].
    change (fold_left (fun s2 h2 => add_host (fst h2) (V4 (snd h2)) 2 s2) icmp (fold_left (fun s h => add_host (fst h) (V4 (snd h)) 1 s) arp scan_new)) with (discovered arp icmp).
    destruct SA as [A1 A2]. destruct SI as [I1 I2]. destruct (hosts_of_net arp icmp) as [ND' HI]. set (hosts := v4_hosts (discovered arp icmp)) in *.
    assert (HO : Forall host_ok hosts). { apply Forall_forall. intros [mac a] I. apply HI in I. destruct I as [I|I]; [exact (proj2 (A1 _ _ I))|exact (proj2 (I1 _ _ I))]. }
    destruct (tcp_spec ovf air OB name d hosts (proj1 ND) HO) as (st & Ft & ST). cbv zeta in ST. pose proof (scans_make name d si st hosts ND Fi Ft) as SC.
    assert (LT : listener air name d (air name (tcp_filter d) st)) by (do 4 eexists; split; [exact SC|auto]).
    destruct (tcp_scan ovf air name d hosts) as [| | |tcp]; cbn [and_then]; [eauto|eauto|left; auto|]. destruct ST as [T1 T2]. right. do 3 eexists. exists hosts, arp, icmp, tcp. split.
    - exact SC.
    - split; cbn [ns_arp ns_icmp ns_tcp]; auto.
    - unfold open_ports_in_network. cbn [ns_arp ns_icmp ns_tcp]. eexists. reflexivity.
    - reflexivity.
    - intros mac ip I. exact (proj1 (A1 _ _ I)).
    - intros mac ip I. exact (proj1 (I1 _ _ I)).
    - exact T1.
    - exact A2.
    - exact I2.
    - exact T2.
  Qed.
  Variable wl : list bytes.
  Lemma nets_spec : forall devices,
    match nets ovf air wl devices with
    | Waits => exists name d, In (name, d) devices /\ allowed wl name /\ net_of ovf air name d = Waits
    | Crashes => exists name d, In (name, d) devices /\ allowed wl name /\ net_of ovf air name d = Crashes
    | Fails => exists name d, In (name, d) devices /\ allowed wl name /\ net_of ovf air name d = Fails
    | Gives l => Forall2 (fun x y => fst x = fst y /\ (allowed wl (fst x) -> net_of ovf air (fst x) (snd x) = Gives (snd y))) devices l
    end.
  Proof using.
    clear OB. induction devices as [|[name d] r IH]; cbn [nets]; [constructor|]. pose proof (allowed_iff wl name) as AL.
    set (a := match wl with [] => true | _ => existsb (beq name) wl end) in *.
    destruct (if a then net_of ovf air name d else Gives no_net) as [| | |n] eqn:E; cbn [and_then].
    1-3: destruct a; [|discriminate]; exists name, d; split; [now left|split; [now apply AL|exact E]].
    destruct (nets ovf air wl r) as [| | |l]; cbn [and_then].
    1-3: destruct IH as (nm & d' & I & Q & H); exists nm, d'; split; [now right|auto].
    constructor; [|exact IH]. cbn [fst snd]. split; [reflexivity|]. intros Q. apply AL in Q. rewrite Q in E. exact E.
  Qed.

  Variable devices : list (bytes * device).
  Hypothesis NT : forall name d, In (name, d) devices -> allowed wl name -> netted d.
  Variable l : list (bytes * netscan).
  Hypothesis NL : nets ovf air wl devices = Gives l.
  Lemma of_report : forall s, scanned wl l s -> exists name d n A I T hosts arp icmp tcp,
    In (name, d) devices /\ allowed wl name /\ gathered name d n A I T hosts arp icmp tcp /\ open_ports_in_network n = Some s.
  Proof using OB NT NL.
    intros s (name & n & I & Q & E). pose proof (nets_spec devices) as NS. rewrite NL in NS. destruct (forall2_in_r _ _ _ _ NS I) as ([nm d] & J & K). cbn [fst snd] in K. destruct K as [-> K].
    specialize (K Q). pose proof (net_spec name d (NT _ _ J Q)) as SP. rewrite K in SP. destruct SP as [[-> _]|(A & I' & T & hosts & arp & icmp & tcp & G)].
    - discriminate E.
    - exists name, d, n, A, I', T, hosts, arp, icmp, tcp. auto.
  Qed.
  Lemma to_report : forall name d, In (name, d) devices -> allowed wl name -> working air name -> exists n A I T hosts arp icmp tcp s,
    gathered name d n A I T hosts arp icmp tcp /\ open_ports_in_network n = Some s /\ scanned wl l s.
  Proof using OB NT NL.
    intros name d J Q W. pose proof (nets_spec devices) as NS. rewrite NL in NS. destruct (forall2_in_l _ _ _ _ NS J) as ([nm n] & I & K). cbn [fst snd] in K. destruct K as [<- K].
    specialize (K Q). pose proof (net_spec name d (NT _ _ J Q)) as SP. rewrite K in SP. destruct SP as [[_ NW]|(A & I' & T & hosts & arp & icmp & tcp & G)]; [contradiction|].
    destruct (ga_some _ _ _ _ _ _ _ _ _ _ G) as (s & E). exists n, A, I', T, hosts, arp, icmp, tcp, s. split; [exact G|]. split; [exact E|]. exists name, n. auto.
  Qed.
  (** The result of a network again *)
  Lemma gathered_spec : forall name d n A I T hosts arp icmp tcp s, gathered name d n A I T hosts arp icmp tcp -> open_ports_in_network n = Some s ->
    (forall mac i p, has_port s (mac, i) p <-> exists a, i = V4 a /\ In (mac, a, p) tcp) /\
    (forall mac i, has_flag s (mac, i) 0 <-> exists a, i = V4 a /\ In (mac, a) arp) /\
    (forall mac i, has_flag s (mac, i) 1 <-> exists a, i = V4 a /\ In (mac, a) icmp) /\
    (forall mac i, known s (mac, i) <-> exists a, i = V4 a /\ ((In (mac, a) arp \/ In (mac, a) icmp) \/ exists p, In (mac, a, p) tcp)).
  Proof using.
    clear. intros name d n A I T hosts arp icmp tcp s G E. destruct (network_spec n s E) as (_ & _ & arp' & icmp' & hosts' & tcp' & R & X & Y & Z & K).
    pose proof (ga_result _ _ _ _ _ _ _ _ _ _ G) as R0. pose proof (ga_const _ _ _ _ _ _ _ _ _ _ G) as C.
    assert (arp' = arp) by (pose proof (nr_arp _ _ _ _ _ R); pose proof (nr_arp _ _ _ _ _ R0); congruence).
    assert (icmp' = icmp) by (pose proof (nr_icmp _ _ _ _ _ R); pose proof (nr_icmp _ _ _ _ _ R0); congruence).
    assert (tcp' = tcp) by (pose proof (nr_tcp _ _ _ _ _ R) as Q; rewrite C in Q; congruence). subst. split; [exact X|]. split; [exact Y|]. split; [exact Z|].
    intros mac i. rewrite K. split; intros (a & Ea & H); exists a; (split; [exact Ea|]); (destruct H as [H|H]; [left; now apply (nr_hosts _ _ _ _ _ R)|right; exact H]).
  Qed.
End Whole.

Section Report.
  Variable air : bytes -> bytes -> list bytes -> capture.
  Hypothesis OB : obeys air.
  Variables lossy lc uc : bytes -> bytes.
  Variable describe : saddr -> bytes -> option (rheader * bytes).
  Variable get_header : saddr -> bytes -> option rheader.
  Variable is_rtsp : saddr -> bool.
  Variables rp mp wl : list bytes.
  Variable devices : list (bytes * device).
  Hypothesis NT : forall name d, In (name, d) devices -> allowed wl name -> netted d.
  Let whole := whole_scan false air lossy lc uc describe get_header is_rtsp rp mp wl devices.

  Lemma whole_cases :
    match whole with
    | Waits => exists name d c, In (name, d) devices /\ allowed wl name /\ listener air name d c /\ within_limit c
    | Crashes => exists name d c f, In (name, d) devices /\ allowed wl name /\ listener air name d c /\ In f (frames (cp_rounds c)) /\ bad_frame f
    | Fails => False
    | Gives r => exists l, nets false air wl devices = Gives l /\ scan_net lossy lc uc describe get_header is_rtsp rp mp wl l = ROk r /\
                 sc_hosts r = sc_hosts (find_open_ports wl l)
    end.
  Proof using OB NT.
    unfold whole, whole_scan. pose proof (nets_spec false air wl devices) as NS. destruct (nets false air wl devices) as [| | |l]; cbn [and_then].
    - destruct NS as (name & d & I & Q & E). pose proof (net_spec false air OB name d (NT _ _ I Q)) as S. rewrite E in S. destruct S as (c & L & W). exists name, d, c. auto.
    - destruct NS as (name & d & I & Q & E). pose proof (net_spec false air OB name d (NT _ _ I Q)) as S. rewrite E in S. destruct S as (c & L & f & F & B). exists name, d, c, f. auto 6.
    - destruct NS as (name & d & I & Q & E). pose proof (net_spec false air OB name d (NT _ _ I Q)) as S. rewrite E in S. exact S.
    - destruct (report_spec lossy lc uc describe get_header is_rtsp rp mp wl l) as (r & streams & E & _ & H & _). cbv zeta in *.
      unfold scan_net in E. rewrite E. cbn [of_result]. exists l. split; [reflexivity|]. split; [exact E|exact H].
  Qed.

  Variable r : scan.
  Hypothesis E : whole = Gives r.
  Lemma ports_heard : forall mac i p, has_port r (mac, i) p -> exists name d A I T hosts ip,
    In (name, d) devices /\ allowed wl name /\ scans air name d A I T hosts /\ i = V4 ip /\ port_heard d T mac ip p /\
    (forall m a, In (m, a) hosts -> arp_heard d A m a \/ echo_heard d I m a).
  Proof using OB NT E.
    intros mac i p H. pose proof whole_cases as W. rewrite E in W. destruct W as (l & NL & _ & HH).
    assert (H' : has_port (find_open_ports wl l) (mac, i) p) by (unfold has_port in *; now rewrite <- HH). destruct (open_ports_spec wl l) as (_ & _ & OP & _). apply OP in H'. destruct H' as (s & S & H').
    destruct (of_report false air OB wl devices NT l NL s S) as (name & d & n & A & I & T & hosts & arp & icmp & tcp & J & Q & G & On).
    destruct (gathered_spec _ _ _ _ _ _ _ _ _ _ _ _ G On) as (X & _). apply X in H'. destruct H' as (a & -> & H'). exists name, d, A, I, T, hosts, a. split; [exact J|]. split; [exact Q|].
    split; [exact (ga_scans _ _ _ _ _ _ _ _ _ _ _ G)|]. split; [reflexivity|]. split; [exact (ga_tcp _ _ _ _ _ _ _ _ _ _ _ G _ _ _ H')|].
    intros m b Hb. apply (nr_hosts _ _ _ _ _ (ga_result _ _ _ _ _ _ _ _ _ _ _ G)) in Hb. destruct Hb as [Hb|Hb]; [left; exact (ga_arp _ _ _ _ _ _ _ _ _ _ _ G _ _ Hb)|right; exact (ga_icmp _ _ _ _ _ _ _ _ _ _ _ G _ _ Hb)].
  Qed.
  Lemma hosts_heard : forall mac i, known r (mac, i) -> exists name d A I T hosts ip,
    In (name, d) devices /\ allowed wl name /\ scans air name d A I T hosts /\ i = V4 ip /\
    (arp_heard d A mac ip \/ echo_heard d I mac ip \/ exists p, port_heard d T mac ip p).
  Proof using OB NT E.
    intros mac i H. pose proof whole_cases as W. rewrite E in W. destruct W as (l & NL & _ & HH).
    assert (H' : known (find_open_ports wl l) (mac, i)) by (unfold known, host_flags in *; now rewrite <- HH). destruct (open_ports_spec wl l) as (_ & _ & _ & _ & OP). apply OP in H'. destruct H' as (s & S & H').
    destruct (of_report false air OB wl devices NT l NL s S) as (name & d & n & A & I & T & hosts & arp & icmp & tcp & J & Q & G & On).
    destruct (gathered_spec _ _ _ _ _ _ _ _ _ _ _ _ G On) as (_ & _ & _ & X). apply X in H'. destruct H' as (a & -> & H'). exists name, d, A, I, T, hosts, a. split; [exact J|]. split; [exact Q|].
    split; [exact (ga_scans _ _ _ _ _ _ _ _ _ _ _ G)|]. split; [reflexivity|]. destruct H' as [[H'|H']|(p & H')].
    - left. exact (ga_arp _ _ _ _ _ _ _ _ _ _ _ G _ _ H').
    - right. left. exact (ga_icmp _ _ _ _ _ _ _ _ _ _ _ G _ _ H').
    - right. right. exists p. exact (ga_tcp _ _ _ _ _ _ _ _ _ _ _ G _ _ _ H').
  Qed.
  Lemma services_heard : forall i v, service_at r i = Some v -> exists name d A I T hosts mac ip port,
    In (name, d) devices /\ allowed wl name /\ scans air name d A I T hosts /\ s_mac v = Some mac /\ s_addr v = Some {| sa_ip := V4 ip; sa_port := port |} /\
    port_heard d T mac ip port /\ (is_rtsp {| sa_ip := V4 ip; sa_port := port |} = true \/ get_header {| sa_ip := V4 ip; sa_port := port |} (lit "/") <> None).
  Proof using OB NT E.
    intros i v H. pose proof whole_cases as W. rewrite E in W. destruct W as (l & NL & SN & HH).
    destruct (report_sound _ _ _ _ _ _ _ _ _ _ _ SN i v H) as (mac & a & Hm & Ha & _ & HP & D). cbv zeta in *.
    assert (H' : has_port r (mac, sa_ip a) (sa_port a)) by (unfold has_port in *; now rewrite HH). destruct (ports_heard _ _ _ H') as (name & d & A & I & T & hosts & ip & J & Q & S & Ei & PH & _).
    destruct a as [ai ap]. cbn [sa_ip sa_port] in *. subst ai. exists name, d, A, I, T, hosts, mac, ip, ap. split; [exact J|]. split; [exact Q|]. split; [exact S|]. split; [exact Hm|]. split; [exact Ha|]. split; [exact PH|]. tauto.
  Qed.
  Lemma answers_found : forall name d, In (name, d) devices -> allowed wl name -> working air name -> exists A I T hosts, scans air name d A I T hosts /\
    (forall f, in_time A f -> whole_arp f -> has_flag r (num f 22 6, V4 (num f 28 4)) 0 /\ In (num f 22 6, num f 28 4) hosts) /\
    (forall f, in_time I f -> whole_ip f -> N.land (ip_src f) (dv_mask d) = network d -> has_flag r (eth_src f, V4 (ip_src f)) 1 /\ In (eth_src f, ip_src f) hosts) /\
    (forall f, in_time T f -> whole_tcp f -> has_port r (eth_src f, V4 (ip_src f)) (port_from f)) /\
    NoDup hosts /\ (forall mac ip, In (mac, ip) hosts -> known r (mac, V4 ip)).
  Proof using OB NT E.
    intros name d J Q W. pose proof whole_cases as WC. rewrite E in WC. destruct WC as (l & NL & _ & HH).
    destruct (to_report false air OB wl devices NT l NL name d J Q W) as (n & A & I & T & hosts & arp & icmp & tcp & s & G & On & S).
    destruct (gathered_spec _ _ _ _ _ _ _ _ _ _ _ _ G On) as (X & Y & Z & KN). destruct (open_ports_spec wl l) as (_ & _ & OP & OF & OK). exists A, I, T, hosts. split; [exact (ga_scans _ _ _ _ _ _ _ _ _ _ _ G)|].
    pose proof (nr_hosts _ _ _ _ _ (ga_result _ _ _ _ _ _ _ _ _ _ _ G)) as NH. split; [|split; [|split; [|split]]].
    - intros f IT WF. pose proof (ga_arp_all _ _ _ _ _ _ _ _ _ _ _ G f IT WF) as H. split; [|apply NH; now left].
      unfold has_flag, host_flags. rewrite HH. apply (OF (num f 22 6, V4 (num f 28 4)) 0). exists s. split; [exact S|]. apply Y. eauto.
    - intros f IT WF N. pose proof (ga_icmp_all _ _ _ _ _ _ _ _ _ _ _ G f IT WF N) as H. split; [|apply NH; now right].
      unfold has_flag, host_flags. rewrite HH. apply (OF (eth_src f, V4 (ip_src f)) 1). exists s. split; [exact S|]. apply Z. eauto.
    - intros f IT WF. pose proof (ga_tcp_all _ _ _ _ _ _ _ _ _ _ _ G f IT WF) as H.
      unfold has_port. rewrite HH. apply (OP (eth_src f, V4 (ip_src f)) (port_from f)). exists s. split; [exact S|]. apply X. eauto.
    - exact (nr_once _ _ _ _ _ (ga_result _ _ _ _ _ _ _ _ _ _ _ G)).
    - intros mac ip H. unfold known, host_flags. rewrite HH. apply (OK (mac, V4 ip)). exists s. split; [exact S|]. apply KN. exists ip. split; [reflexivity|]. left. now apply NH.
  Qed.
End Report.
