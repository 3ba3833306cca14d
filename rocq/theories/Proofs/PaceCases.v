(** A slow sender: a device that answers every request at once is not found. *)
From Coq Require Import String NArith ZArith List Bool Lia ZifyBool ZifyNat ZifyN.
From Verif.Model Require Import Bytes Text Mac Service Control Http Sdp Discovery Raw Scan.
From Verif.Spec Require Import RawSpec DiscoverySpec ScanSpec PaceSpec.
From Verif.Proofs Require Import BytesFacts ScanFrames ScanPf ScanWhole ScanCases PacePf.
Import ListNotations.
Local Open Scope N_scope.
Local Open Scope list_scope.

(** ** Whether a filter accepts a frame *)
Definition arp_b (f : bytes) : bool := num f 12 2 =? 2054.
Definition ip_b (f : bytes) : bool := num f 12 2 =? 2048.
Definition primitive_b (f : bytes) (l : list bytes) : option bool :=
  match l with
  | [a] =>
      if beq a (lit "arp") then Some (arp_b f)
      else if beq a (lit "icmp") then Some (ip_b f && (ip_proto f =? 1))
      else if beq a (lit "tcp") then Some (ip_b f && (ip_proto f =? 6) || (num f 12 2 =? 34525))
      else None
  | [a; b; c] =>
      if beq a (lit "ether") && beq b (lit "dst") then option_map (fun m => eth_dst f =? m) (mac_parse c)
      else if beq a (lit "ip") && beq b (lit "dst") then option_map (fun x => ip_b f && (ip_dst f =? x)) (address c)
      else if beq a (lit "dst") && beq b (lit "host") then option_map (fun x => ip_b f && (ip_dst f =? x) || (arp_b f || (num f 12 2 =? 32821))) (address c)
      else if beq a (lit "dst") && beq b (lit "port") then option_map (fun p => negb (ip_b f) || (port_to f =? p)) (number 65535 c)
      else if beq a (lit "icmp[icmptype]") && beq b (lit "=") && beq c (lit "icmp-echoreply")
           then Some (ip_b f && ((ip_proto f =? 1) && (byte_at f (inside f) =? 0)))
      else None
  | [a; b; c; d; e] =>
      if beq a (lit "tcp[tcpflags]") && beq b (lit "&") && beq d (lit "!=") && beq e (lit "0") then
        if beq c (lit "tcp-syn") then Some (negb (ip_b f) || N.testbit (tcp_bits f) 1)
        else if beq c (lit "tcp-ack") then Some (negb (ip_b f) || N.testbit (tcp_bits f) 4)
        else None
      else None
  | _ => None
  end.
Lemma primitive_reads f l : match primitive l, primitive_b f l with
  | Some Q, Some b => Q f <-> b = true
  | None, None => True
  | _, _ => False
  end.
Proof.
  assert (A : is_arp f <-> arp_b f = true) by (unfold is_arp, arp_b; symmetry; apply N.eqb_eq).
  assert (I : is_ip f <-> ip_b f = true) by (unfold is_ip, ip_b; symmetry; apply N.eqb_eq).
  assert (OR : forall b (P : Prop) c, (P <-> c = true) -> ((b = true -> P) <-> negb b || c = true)).
  { intros [] P c H; cbn [negb orb]; rewrite H; split; auto; discriminate. }
  destruct l as [|a [|b [|c [|d [|e [|]]]]]]; cbn [primitive primitive_b]; try exact Logic.I.
  - destruct (beq a (lit "arp")); [exact A|]. destruct (beq a (lit "icmp")); [rewrite andb_true_iff, I, N.eqb_eq; reflexivity|].
    destruct (beq a (lit "tcp")); [|exact Logic.I]. rewrite orb_true_iff, andb_true_iff, I, !N.eqb_eq. reflexivity.
  - destruct (beq a (lit "ether") && beq b (lit "dst")); [destruct (mac_parse c); cbn [option_map]; [symmetry; apply N.eqb_eq|exact Logic.I]|].
    destruct (beq a (lit "ip") && beq b (lit "dst")); [destruct (address c); cbn [option_map]; [rewrite andb_true_iff, I, N.eqb_eq; reflexivity|exact Logic.I]|].
    destruct (beq a (lit "dst") && beq b (lit "host")); [destruct (address c); cbn [option_map]; [rewrite !orb_true_iff, andb_true_iff, I, A, !N.eqb_eq; reflexivity|exact Logic.I]|].
    destruct (beq a (lit "dst") && beq b (lit "port")); [destruct (number 65535 c); cbn [option_map]; [rewrite I; apply OR; symmetry; apply N.eqb_eq|exact Logic.I]|].
    destruct (beq a (lit "icmp[icmptype]") && beq b (lit "=") && beq c (lit "icmp-echoreply")); [|exact Logic.I]. rewrite !andb_true_iff, I, !N.eqb_eq. reflexivity.
  - destruct (beq a (lit "tcp[tcpflags]") && beq b (lit "&") && beq d (lit "!=") && beq e (lit "0")); [|exact Logic.I].
    destruct (beq c (lit "tcp-syn")); [rewrite I; now apply OR|]. destruct (beq c (lit "tcp-ack")); [rewrite I; now apply OR|exact Logic.I].
Qed.
Definition accepts (flt f : bytes) : bool :=
  forallb (fun l => match primitive_b f l with Some b => b | None => false end) (primitives (split_on 32 flt)).
Lemma accepts_means flt P f : means flt P -> (P f <-> accepts flt f = true).
Proof.
  intros (Qs & M & H). rewrite H. unfold accepts. clear H P. revert Qs M. generalize (primitives (split_on 32 flt)) as ps.
  induction ps as [|p ps IH]; intros [|Q Qs] M; cbn [map] in M; try discriminate M; [split; [reflexivity|constructor]|].
  injection M as M1 M2. cbn [forallb]. rewrite andb_true_iff, <- (IH Qs M2). pose proof (primitive_reads f p) as R. rewrite M1 in R.
  destruct (primitive_b f p) as [b|]; [|contradiction]. rewrite <- R. split; [intros X; inversion X; now split|intros (X & Y); now constructor].
Qed.

(** ** The network 192.168.1.0/24 with a camera at 192.168.1.254; one frame takes 10 ms, the answer 1 ms. *)
Definition slow_dev : device := {| dv_mac := 2199023255553; dv_ip := 3232235777; dv_mask := 4294967040 |}.
Definition far_ip : N := 3232236030.
Definition reply_of (d : device) (ip : N) : bytes :=
  be48 (dv_mac d) ++ be48 cam ++ [8; 6; 0; 1; 8; 0; 6; 4; 0; 2] ++ be48 cam ++ be32 ip ++ be48 (dv_mac d) ++ be32 (dv_ip d).
Fixpoint position (q : bytes) (l : list bytes) : option nat :=
  match l with [] => None | x :: r => if beq x q then Some 0%nat else option_map S (position q r) end.
(** The listener waits 100 ms for a frame (pcap/mod.rs:301). *)
Definition tick (i : nat) : round := let u := N.of_nat i * 100000000 in Rd None u u u.
Definition quiet (t : N) : list round := map tick (seq 1 (N.to_nat (t / 100000000))).
Definition ending (t : N) : list round := [Rd None (t + 21000000000) (t + 21000000000) (t + 21000000000)].
Definition paced_air (d : device) (ip : N) (name flt : bytes) (sent : list bytes) : capture :=
  {| cp_open := true; cp_start := 0; cp_sent := true;
     cp_rounds := match accepts flt (reply_of d ip), position (arp_query d ip) sent with
                  | true, Some k => let t := (N.of_nat k + 1) * 10000000 + 1000000 in quiet t ++ Rd (Some (reply_of d ip)) t t t :: ending t
                  | _, _ => ending 0
                  end |}.
Lemma position_first q : forall l k, nth_error l k = Some q -> exists j, position q l = Some j /\ (j <= k)%nat.
Proof.
  induction l as [|x l IH]; intros [|k] E; cbn [nth_error position] in *; try discriminate E.
  - injection E as ->. assert (B : beq q q = true) by now apply beq_spec. rewrite B. exists 0%nat. split; [reflexivity|lia].
  - destruct (beq x q); [exists 0%nat; split; [reflexivity|lia]|]. destruct (IH k E) as (j & -> & L). exists (S j). split; [reflexivity|lia].
Qed.
Lemma quiet_frames t : frames (quiet t) = [].
Proof. unfold quiet. induction (seq 1 (N.to_nat (t / 100000000))) as [|x l IH]; [reflexivity|]. exact IH. Qed.
Lemma paced_heard d ip name flt sent f : In f (frames (cp_rounds ((paced_air d ip) name flt sent))) -> f = (reply_of d ip) /\ accepts flt (reply_of d ip) = true.
Proof.
  unfold paced_air. cbn [cp_rounds]. destruct (accepts flt (reply_of d ip)); [|intros []]. destruct (position _ sent) as [k|]; [|intros []].
  cbv zeta. rewrite frames_app, quiet_frames. intros [<-|[]]. now split.
Qed.
Lemma paced_obeys d ip : wf_bytes (reply_of d ip) -> obeys (paced_air d ip).
Proof.
  intros WB name flt sent f I. apply paced_heard in I as (-> & A). split; [exact WB|]. intros P M. now apply (accepts_means flt P (reply_of d ip) M).
Qed.
Lemma ticks_clocked rest t : forall n a now, now <= N.of_nat a * 100000000 -> now <= t -> N.of_nat (a + n) * 100000000 <= t + 100000000 ->
  (forall u, u <= t -> clocked u rest) -> clocked now (map tick (seq a n) ++ rest).
Proof.
  induction n as [|n IH]; intros a now H1 H2 H3 R; cbn [seq map app]; [now apply R|]. unfold tick at 1. cbv zeta. cbn [clocked].
  split; [now intros X|]. split; [lia|]. apply IH; [lia|lia|lia|exact R].
Qed.
Lemma paced_clocks d ip : clocks (paced_air d ip).
Proof.
  intros name flt sent. cbv zeta. assert (En : forall u t, u <= t -> clocked u (ending t)) by (intros u t L; unfold ending; cbn [clocked]; split; [now intros X|]; split; [lia|exact Logic.I]).
  unfold paced_air. cbn [cp_rounds cp_start]. destruct (accepts flt (reply_of d ip)); [|apply En; lia]. destruct (position _ sent) as [k|]; [|apply En; lia].
  cbv zeta. set (t := (N.of_nat k + 1) * 10000000 + 1000000). unfold quiet. apply (ticks_clocked _ t); [lia|lia| |].
  - pose proof (N.mul_div_le t 100000000). lia.
  - intros u L. cbn [clocked]. split; [intros _; lia|]. split; [lia|]. apply En. lia.
Qed.
Lemma paced_working d ip : working (paced_air d ip) ex_name.
Proof.
  intros flt sent. cbv zeta. split; [reflexivity|]. split; [reflexivity|]. unfold paced_air. cbn [cp_rounds].
  assert (En : forall t, ~ In RdError (ending t)) by (intros t [X|[]]; discriminate X).
  destruct (accepts flt (reply_of d ip)); [|apply En]. destruct (position _ sent) as [k|]; [|apply En]. cbv zeta. intros I. apply in_app_or in I as [I|[I|I]].
  - unfold quiet in I. apply in_map_iff in I as (x & X & _). discriminate X.
  - discriminate I.
  - exact (En _ I).
Qed.
Lemma paced_answers d ip : arp_from (dv_mac d) cam ip (reply_of d ip) -> whole_arp (reply_of d ip) -> answers_arp (paced_air d ip) ex_name d 10000000 1000000 cam ip.
Proof.
  intros AF WA flt P sent k M PF K. exists (reply_of d ip). split; [exact AF|]. split; [exact WA|].
  assert (Y : P (reply_of d ip)) by (apply PF; destruct AF as (A1 & A2 & _); now split). apply (accepts_means flt P (reply_of d ip) M) in Y.
  destruct (position_first _ _ _ K) as (j & Ej & L). unfold read_by, paced_air. cbn [cp_rounds cp_start]. rewrite Y, Ej. cbv zeta.
  eexists _, _, _. split; [apply in_or_app; right; now left|]. lia.
Qed.
Lemma slow_netted : netted slow_dev.
Proof. split; [split; [reflexivity|split; reflexivity]|reflexivity]. Qed.
Definition slow_scan : outcome scan :=
  whole_scan false (paced_air slow_dev far_ip) (fun x => x) (fun x => x) (fun x => x) (fun _ _ => None) (fun _ _ => None) (fun _ => true) [] [] [] [(ex_name, slow_dev)].
Lemma slow_report : exists r, slow_scan = Gives r /\ sc_hosts r = [] /\ sc_services r = [].
Proof. eexists. split; [vm_compute; reflexivity|]. split; reflexivity. Qed.
Ltac arp_ok := split; [repeat split; reflexivity|]; split; [reflexivity|]; split; [reflexivity|]; split; [reflexivity|]; vm_compute; discriminate.
Lemma late_case : exists air name d mac ip r,
  obeys air /\ clocks air /\ working air name /\ netted d /\ network d < ip < broadcast d /\ broadcast d - network d - 1 = 254 /\
  answers_arp air name d 10000000 1000000 mac ip /\
  whole_scan false air (fun x => x) (fun x => x) (fun x => x) (fun _ _ => None) (fun _ _ => None) (fun _ => true) [] [] [] [(name, d)] = Gives r /\
  sc_hosts r = [] /\ sc_services r = [].
Proof.
  destruct slow_report as (r & E & H & V). unfold slow_scan in E. exists (paced_air slow_dev far_ip), ex_name, slow_dev, cam, far_ip, r.
  assert (W : arp_from (dv_mac slow_dev) cam far_ip (reply_of slow_dev far_ip) /\ whole_arp (reply_of slow_dev far_ip)) by arp_ok.
  split; [apply paced_obeys; bytes_ok|]. split; [apply paced_clocks|]. split; [apply paced_working|]. split; [exact slow_netted|].
  split; [split; reflexivity|]. split; [reflexivity|]. split; [exact (paced_answers _ _ (proj1 W) (proj2 W))|]. split; [exact E|]. now split.
Qed.
(** ** A camera at 192.168.1.2 that answers ARP and at some ports; here it does not even wait for the requests. *)
Section Near.
Variable fs : list bytes.
Definition air_of (name flt : bytes) (sent : list bytes) : capture :=
  {| cp_open := true; cp_start := 0; cp_sent := true;
     cp_rounds := map (fun f => Rd (Some f) 1000000 1000000 1000000) (filter (accepts flt) fs) ++ ending 1000000 |}.
Lemma near_heard name flt sent f : In f (frames (cp_rounds (air_of name flt sent))) <-> In f fs /\ accepts flt f = true.
Proof.
  unfold air_of. cbn [cp_rounds]. rewrite <- filter_In. generalize (filter (accepts flt) fs) as l. intros l.
  rewrite frames_app. replace (frames (map (fun f => Rd (Some f) 1000000 1000000 1000000) l)) with l; [|induction l as [|x l IH]; [reflexivity|cbn; f_equal; exact IH]].
  cbn. rewrite app_nil_r. reflexivity.
Qed.
Lemma near_read name flt sent f after : In f fs -> accepts flt f = true -> 1000000 <= after -> read_by (air_of name flt sent) f after.
Proof.
  intros I A L. exists 1000000, 1000000, 1000000. split; [|exact L]. unfold air_of. cbn [cp_rounds]. apply in_or_app. left.
  apply in_map_iff. exists f. split; [reflexivity|]. apply filter_In. now split.
Qed.
Lemma near_obeys : Forall wf_bytes fs -> obeys air_of.
Proof.
  intros WB name flt sent f I. apply near_heard in I as (I & A). split; [|intros P M; now apply (accepts_means flt P f M)].
  rewrite Forall_forall in WB. now apply WB.
Qed.
Lemma near_clocks : clocks air_of.
Proof.
  intros name flt sent. cbv zeta. unfold air_of. cbn [cp_rounds cp_start]. assert (En : forall u, u <= 1000000 -> clocked u (ending 1000000)) by (intros u L; unfold ending; cbn [clocked]; split; [now intros X|]; split; [lia|exact Logic.I]).
  assert (G : forall l u, u <= 1000000 -> clocked u (map (fun f => Rd (Some f) 1000000 1000000 1000000) l ++ ending 1000000)).
  { induction l as [|x l IH]; intros u L; cbn [map app]; [now apply En|]. cbn [clocked]. split; [intros _; lia|]. split; [lia|]. apply IH. lia. }
  apply G. lia.
Qed.
Lemma near_working : working air_of ex_name.
Proof.
  intros flt sent. cbv zeta. split; [reflexivity|]. split; [reflexivity|]. unfold air_of. cbn [cp_rounds]. intros I. apply in_app_or in I as [I|[I|[]]]; [|discriminate I].
  apply in_map_iff in I as (x & X & _). discriminate X.
Qed.
Lemma near_arp : In (reply_of ex_dev local_ip) fs -> answers_arp air_of ex_name ex_dev 10000000 1000000 cam local_ip.
Proof.
  intros H flt P sent k M PF _. assert (W : arp_from (dv_mac ex_dev) cam local_ip (reply_of ex_dev local_ip) /\ whole_arp (reply_of ex_dev local_ip)) by arp_ok.
  exists (reply_of ex_dev local_ip). split; [apply W|]. split; [apply W|]. apply near_read; [exact H| |lia].
  apply (accepts_means flt P _ M), PF. destruct W as ((A1 & A2 & _) & _). now split.
Qed.
Lemma near_port port : In (syn_says cam local_ip port) fs -> syn_ack_from (dv_ip ex_dev) cam local_ip port (syn_says cam local_ip port) -> whole_tcp (syn_says cam local_ip port) ->
  answers_port air_of ex_name ex_dev 10000000 1000000 cam local_ip port.
Proof.
  intros H SA WT flt P sent k q M PF _ _. exists (syn_says cam local_ip port). split; [exact SA|]. split; [exact WT|]. apply near_read; [exact H| |lia].
  apply (accepts_means flt P _ M), PF; [exact (proj1 SA)|]. now exists cam, local_ip, port.
Qed.
End Near.
Definition near_air := air_of [reply_of ex_dev local_ip; syn_says cam local_ip 554].
Lemma near_case : obeys near_air /\ clocks near_air /\ working near_air ex_name /\ netted ex_dev /\
  network ex_dev < local_ip < broadcast ex_dev /\ (broadcast ex_dev - network ex_dev - 1) * 10000000 + 1000000 <= 2000000000 /\
  answers_arp near_air ex_name ex_dev 10000000 1000000 cam local_ip /\ answers_port near_air ex_name ex_dev 10000000 1000000 cam local_ip 554 /\
  exists r, ex_scan near_air = Gives r /\ has_flag r (cam, V4 local_ip) 0 /\ has_port r (cam, V4 local_ip) 554.
Proof.
  split; [apply near_obeys; repeat (apply Forall_cons; [bytes_ok|]); apply Forall_nil|]. split; [apply near_clocks|]. split; [apply near_working|]. split; [exact ex_netted|].
  split; [split; reflexivity|]. split; [vm_compute; discriminate|]. split; [apply near_arp; now left|split].
  - apply near_port; [right; now left|repeat split; reflexivity|exact (proj2 (proj2 (proj2 own_in_time)))].
  - eexists. split; [vm_compute; reflexivity|]. split; [eexists; split; reflexivity|]. eexists. split; [reflexivity|]. now left.
Qed.
