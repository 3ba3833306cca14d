(** Devices that answer are found if all frames are sent soon enough. *)
From Coq Require Import String NArith ZArith List Bool Lia ZifyBool ZifyNat ZifyN.
From Verif.Model Require Import Bytes Text Mac Service Control Http Sdp Discovery Raw Scan.
From Verif.Spec Require Import RawSpec DiscoverySpec ScanSpec PaceSpec.
From Verif.Proofs Require Import BytesFacts DiscMaps RawGen ScanFrames ScanPf ScanWhole.
Import ListNotations.
Local Open Scope N_scope.
Local Open Scope list_scope.

Lemma clocked_app : forall a b now, clocked now (a ++ b) -> clocked now a.
Proof.
  induction a as [|[f t1 t2 t3|] a IH]; intros b now H; cbn [app clocked] in *; [exact Logic.I| |eauto].
  destruct H as (A & B & C). split; [exact A|]. split; [exact B|]. eauto.
Qed.
(** Every time read before a frame is at most the time of the frame. *)
Lemma clocked_before : forall a b now f t1 t2 t3, clocked now (a ++ Rd (Some f) t1 t2 t3 :: b) ->
  now <= t1 /\ forall g s1 s2 s3, In (Rd g s1 s2 s3) a -> s2 <= s3 /\ s3 <= t1.
Proof.
  induction a as [|[g s1 s2 s3|] a IH]; intros b now f t1 t2 t3 H; cbn [app clocked] in H.
  - destruct H as (A & _). split; [destruct A; [discriminate|lia]|intros ? ? ? ? []].
  - destruct H as (_ & B & C). destruct (IH _ _ _ _ _ _ C) as (D & X). split; [lia|].
    intros g' u1 u2 u3 [[= <- <- <- <-]|I]; [lia|eauto].
  - destruct (IH _ _ _ _ _ _ H) as (D & X). split; [exact D|]. intros g' u1 u2 u3 [Q|I]; [discriminate Q|eauto].
Qed.
Lemma last_frame_ge : forall l now last, clocked now l -> last <= now -> last <= last_frame last l.
Proof.
  induction l as [|[[f|] t1 t2 t3|] l IH]; intros now last H L; cbn [last_frame clocked] in *; [lia| | |eauto].
  - destruct H as (A & B & C). assert (Q : now <= t1 <= t2) by (apply A; discriminate). assert (t1 <= last_frame t1 l) by (apply (IH t3); [exact C|lia]). lia.
  - destruct H as (_ & B & C). apply (IH t3); [exact C|lia].
Qed.
Lemma soon_in_time c f after : clocked (cp_start c) (cp_rounds c) -> read_by c f after -> after <= 2000000000 -> in_time c f.
Proof.
  intros K (t1 & t2 & t3 & I & T) L. apply in_split in I as (pre & post & E). exists pre, t1, t2, t3, post. split; [exact E|].
  intros a b -> _ (p & g & s1 & s2 & s3 & Ea & X). rewrite E in K. destruct (clocked_before _ _ _ _ _ _ _ K) as (_ & B).
  destruct (B g s1 s2 s3) as (B1 & B2). { apply in_or_app. left. rewrite Ea. apply in_or_app. right. now left. }
  assert (Ka : clocked (cp_start c) a) by (rewrite <- app_assoc in K; exact (clocked_app _ _ _ K)).
  pose proof (last_frame_ge a _ (cp_start c) Ka (N.le_refl _)). destruct X as [(t & [= <-] & X)|X]; lia.
Qed.

Lemma in_at {A} (x : A) : forall l, In x l -> exists k, nth_error l k = Some x /\ (k < length l)%nat.
Proof. intros l I. apply In_nth_error in I as (k & H). exists k. split; [exact H|]. apply nth_error_Some. congruence. Qed.
Lemma forall2_at {A B} (R : A -> B -> Prop) : forall l m, Forall2 R l m -> forall k x, nth_error l k = Some x -> exists y, nth_error m k = Some y /\ R x y.
Proof. intros l m H. induction H as [|x y l m Hxy H IH]; intros [|k] z E; cbn [nth_error] in E; try discriminate E; [injection E as <-; now exists y|exact (IH k z E)]. Qed.
Lemma fits k n pace delay : (k < n)%nat -> N.of_nat n * pace + delay <= 2000000000 -> (N.of_nat k + 1) * pace + delay <= 2000000000.
Proof. intros H L. assert ((N.of_nat k + 1) * pace <= N.of_nat n * pace) by (apply N.mul_le_mono_r; lia). lia. Qed.

Section Pace.
  Variable air : bytes -> bytes -> list bytes -> capture.
  Hypothesis OB : obeys air.
  Hypothesis CK : clocks air.
  Variables lossy lc uc : bytes -> bytes.
  Variable describe : saddr -> bytes -> option (rheader * bytes).
  Variable get_header : saddr -> bytes -> option rheader.
  Variable is_rtsp : saddr -> bool.
  Variables rp mp wl : list bytes.
  Variable devices : list (bytes * device).
  Hypothesis NT : forall name d, In (name, d) devices -> allowed wl name -> netted d.
  Variable r : scan.
  Hypothesis E : whole_scan false air lossy lc uc describe get_header is_rtsp rp mp wl devices = Gives r.
  Lemma prompt_found name d pace delay : In (name, d) devices -> allowed wl name -> working air name ->
    (broadcast d - network d - 1) * pace + delay <= 2000000000 ->
    exists hosts,
    (forall mac ip, network d < ip < broadcast d -> answers_arp air name d pace delay mac ip ->
       has_flag r (mac, V4 ip) 0 /\ In (mac, ip) hosts) /\
    nlen hosts <= nlen (hosts_of r) /\
    (nlen hosts * 13 * pace + delay <= 2000000000 ->
     forall mac ip port, In (mac, ip) hosts -> In port camera_ports -> answers_port air name d pace delay mac ip port -> has_port r (mac, V4 ip) port).
  Proof using OB CK NT E.
    intros J Q W L. destruct (answers_found air OB lossy lc uc describe get_header is_rtsp rp mp wl devices NT r E name d J Q W) as (A & I & T & hosts & S & FA & _ & FT & ND & KN).
    exists hosts. split; [|split].
    - intros mac ip B AN. destruct (sw_arp _ _ _ _ _ _ _ S) as (flt & P & M & PF & EA). apply between_in in B. destruct (in_at _ _ B) as (k & K & KL).
      destruct (AN flt P (map (arp_query d) (between_addrs (network d) (broadcast d))) k M PF) as (f & AF & WF & RB); [rewrite nth_error_map, K; reflexivity|].
      rewrite <- EA in RB. assert (LN : N.of_nat (length (between_addrs (network d) (broadcast d))) = broadcast d - network d - 1).
      { unfold between_addrs. rewrite map_length, seq_length. lia. }
      rewrite <- LN in L. assert (IT : in_time A f).
      { apply (soon_in_time A f ((N.of_nat k + 1) * pace + delay)); [rewrite EA; apply CK|exact RB|exact (fits _ _ _ _ KL L)]. }
      destruct (FA f IT WF) as (X & Y). destruct AF as (_ & _ & _ & _ & E1 & E2). rewrite E1, E2 in *. now split.
    - unfold nlen, hosts_of. rewrite map_length.
      assert (NoDup (map (fun x : N * N => (fst x, V4 (snd x))) hosts)) as ND' by (apply FinFun.Injective_map_NoDup; [intros [a b] [c e] [= -> ->]; reflexivity|exact ND]).
      assert (incl (map (fun x : N * N => (fst x, V4 (snd x))) hosts) (map fst (sc_hosts r))) as IN.
      { intros y Hy. apply in_map_iff in Hy as ([m a] & <- & Hy). apply KN in Hy. cbn [fst snd]. unfold known, host_flags in Hy.
        destruct (mget hkey_dec (m, V4 a) (sc_hosts r)) as [h|] eqn:G; [|now contradict Hy]. apply mget_in in G. apply in_map_iff. now exists ((m, V4 a), h). }
      pose proof (NoDup_incl_length ND' IN) as LE. rewrite !map_length in LE. lia.
    - intros LT mac ip port HI HP AN. destruct (sw_tcp _ _ _ _ _ _ _ S) as (flt & P & sent & M & PF & F2 & ET).
      assert (IP : In ((mac, ip), port) (list_prod hosts camera_ports)) by now apply in_prod. destruct (in_at _ _ IP) as (k & K & KL).
      destruct (forall2_at _ _ _ F2 _ _ K) as (q & Hq & AQ). destruct (AN flt P sent k q M PF Hq AQ) as (f & AF & WF & RB). rewrite <- ET in RB.
      rewrite prod_length in KL. assert (LT' : N.of_nat (length hosts * length camera_ports) * pace + delay <= 2000000000).
      { replace (N.of_nat (length hosts * length camera_ports)) with (nlen hosts * 13); [exact LT|]. unfold nlen. change (length camera_ports) with 13%nat. lia. }
      assert (IT : in_time T f).
      { apply (soon_in_time T f ((N.of_nat k + 1) * pace + delay)); [rewrite ET; apply CK|exact RB|exact (fits _ _ _ _ KL LT')]. }
      pose proof (FT f IT WF) as X. destruct AF as (_ & _ & _ & _ & _ & _ & E1 & E2 & E3). now rewrite E1, E2, E3 in X.
  Qed.
End Pace.
