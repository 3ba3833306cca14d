(** Discovery: scans of networks and the report. *)
From Coq Require Import String NArith List Bool Lia ZArith ZifyBool ZifyNat ZifyN.
From Verif.Model Require Import Bytes Alist Service Control Http Sdp Discovery.
From Verif.Spec Require Import DiscoverySpec.
From Verif.Proofs Require Import BytesFacts AlistFacts SdpText DiscMaps DiscPick.
Import ListNotations.
Local Open Scope N_scope.

(** ** Networks *)
Lemma or_flags_some : forall a f, or_flags (or_flags a (Some f)) (Some f) = or_flags a (Some f).
Proof. intros [x|] f; cbn [or_flags]; [|now rewrite N.lor_diag]. rewrite <- N.lor_assoc. now rewrite N.lor_diag. Qed.
Definition v4_pair_dec (x y : N * N) : {x = y} + {x <> y}.
Proof. decide equality; apply N.eq_dec. Defined.
Definition add_hosts (f : N) (l : list (N * N)) (s : scan) : scan := fold_left (fun s h => add_host (fst h) (V4 (snd h)) f s) l s.
Definition add_ports (l : list (N * N * N)) (s : scan) : scan := fold_left (fun s x => add_port (fst (fst x)) (V4 (snd (fst x))) (snd x) s) l s.
Lemma add_hosts_ok : forall f l s, scan_ok s -> scan_ok (add_hosts f l s).
Proof. induction l as [|h l IH]; intros s O; [exact O|]. apply IH. now apply add_host_ok. Qed.
Lemma add_hosts_in : forall f l s mac a, In (mac, a) l -> host_flags (add_hosts f l s) (mac, V4 a) = or_flags (host_flags s (mac, V4 a)) (Some f).
Proof.
  induction l as [|[m b] l IH]; intros s mac a I; [contradiction|]. cbn [add_hosts fold_left fst snd]. fold (add_hosts f l (add_host m (V4 b) f s)).
  destruct (in_dec v4_pair_dec (mac, a) l) as [J|J].
  - rewrite IH by exact J. rewrite add_host_flags. destruct (hkey_dec (mac, V4 a) (m, V4 b)); [apply or_flags_some|reflexivity].
  - destruct I as [[= -> ->]|I]; [|contradiction]. clear IH.
    assert (X : forall l s, ~ In (mac, a) l -> host_flags (add_hosts f l s) (mac, V4 a) = host_flags s (mac, V4 a)).
    { clear. induction l as [|[m b] l IH]; intros s NI; [reflexivity|]. cbn [add_hosts fold_left fst snd]. fold (add_hosts f l (add_host m (V4 b) f s)). cbn [In] in NI. rewrite IH by tauto.
      rewrite add_host_flags. destruct (hkey_dec (mac, V4 a) (m, V4 b)) as [E|]; [|reflexivity]. injection E as -> ->. tauto. }
    rewrite X by exact J. rewrite add_host_flags. destruct (hkey_dec (mac, V4 a) (mac, V4 a)); [reflexivity|congruence].
Qed.
Lemma add_hosts_out : forall f l s k, (forall a, snd k = V4 a -> ~ In (fst k, a) l) -> host_flags (add_hosts f l s) k = host_flags s k.
Proof.
  induction l as [|[m b] l IH]; intros s k NI; [reflexivity|]. cbn [add_hosts fold_left fst snd]. fold (add_hosts f l (add_host m (V4 b) f s)).
  rewrite IH by (intros a E I; apply (NI a E); now right). rewrite add_host_flags. destruct (hkey_dec k (m, V4 b)) as [->|]; [|reflexivity]. exfalso. apply (NI b); [reflexivity|now left].
Qed.
Lemma add_hosts_ports : forall f l s k p, has_port (add_hosts f l s) k p <-> has_port s k p.
Proof. induction l as [|h l IH]; intros s k p; [reflexivity|]. cbn [add_hosts fold_left]. fold (add_hosts f l (add_host (fst h) (V4 (snd h)) f s)). rewrite IH. apply add_host_ports. Qed.
Lemma add_hosts_services : forall f l s, sc_services (add_hosts f l s) = sc_services s.
Proof. induction l as [|h l IH]; intros s; [reflexivity|]. cbn [add_hosts fold_left]. fold (add_hosts f l (add_host (fst h) (V4 (snd h)) f s)). now rewrite IH. Qed.
Lemma add_ports_ok : forall l s, scan_ok s -> scan_ok (add_ports l s).
Proof. induction l as [|h l IH]; intros s O; [exact O|]. apply IH. now apply add_port_ok. Qed.
Lemma add_ports_services : forall l s, sc_services (add_ports l s) = sc_services s.
Proof. induction l as [|h l IH]; intros s; [reflexivity|]. cbn [add_ports fold_left]. fold (add_ports l (add_port (fst (fst h)) (V4 (snd (fst h))) (snd h) s)). now rewrite IH. Qed.
Lemma add_ports_ports : forall l s mac i p, has_port (add_ports l s) (mac, i) p <-> has_port s (mac, i) p \/ exists a, i = V4 a /\ In (mac, a, p) l.
Proof.
  induction l as [|[[m b] q] l IH]; intros s mac i p.
  - split; [auto|]. intros [H|(a & _ & [])]. exact H.
  - cbn [add_ports fold_left fst snd]. fold (add_ports l (add_port m (V4 b) q s)). rewrite IH, add_port_ports. split.
    + intros [[H|[[= -> ->] ->]]|(a & -> & I)]; [auto|right; exists b; split; [reflexivity|now left]|right; exists a; split; [reflexivity|now right]].
    + intros [H|(a & -> & [[= -> -> ->]|I])]; [auto|left; right; auto|right; eauto].
Qed.
Lemma add_ports_flags : forall l s k f, host_flags s k = Some f -> host_flags (add_ports l s) k = Some f.
Proof.
  induction l as [|[[m b] q] l IH]; intros s k f H; [exact H|]. cbn [add_ports fold_left fst snd]. fold (add_ports l (add_port m (V4 b) q s)). apply IH. rewrite add_port_flags, H.
  destruct (hkey_dec k (m, V4 b)); [|reflexivity]. cbn [or_flags]. now rewrite N.lor_0_r.
Qed.
Lemma add_ports_none : forall l s mac i, host_flags s (mac, i) = None ->
  ((exists a p, i = V4 a /\ In (mac, a, p) l) /\ host_flags (add_ports l s) (mac, i) = Some 0)
  \/ ((forall a p, i = V4 a -> ~ In (mac, a, p) l) /\ host_flags (add_ports l s) (mac, i) = None).
Proof.
  induction l as [|[[m b] q] l IH]; intros s mac i H.
  - right. split; [intros a p _ []|exact H].
  - cbn [add_ports fold_left fst snd]. fold (add_ports l (add_port m (V4 b) q s)). destruct (hkey_dec (mac, i) (m, V4 b)) as [E|NE].
    + injection E as -> ->. left. split; [exists b, q; split; [reflexivity|now left]|]. apply add_ports_flags. rewrite add_port_flags, H. destruct (hkey_dec (m, V4 b) (m, V4 b)); [reflexivity|congruence].
    + destruct (IH (add_port m (V4 b) q s) mac i) as [[(a & p & -> & I) E]|[NI E]].
      * rewrite add_port_flags. destruct (hkey_dec (mac, i) (m, V4 b)); [congruence|exact H].
      * left. split; [|exact E]. exists a, p. split; [reflexivity|now right].
      * right. split; [|exact E]. intros a p -> [[= -> -> ->]|I]; [congruence|now apply (NI a p)].
Qed.

Lemma v4_in : forall s, scan_ok s -> forall mac a, In (mac, a) (v4_hosts s) <-> known s (mac, V4 a).
Proof.
  intros s O mac a. unfold v4_hosts, hosts_of, known, host_flags. rewrite in_flat_map. split.
  - intros (h & I & J). apply in_map_iff in I. destruct I as ([k h'] & <- & I). cbn [snd] in *. destruct (ok_records s O k h' I) as [-> _].
    destruct (hr_ip h') as [b|b] eqn:E; [|contradiction]. destruct J as [[= <- <-]|[]]. rewrite (in_mget _ _ h') by (try apply O; exact I). discriminate.
  - intros H. destruct (mget hkey_dec (mac, V4 a) (sc_hosts s)) as [h|] eqn:E; [|now contradict H]. apply mget_in in E. exists h. split; [apply in_map_iff; exists (mac, V4 a, h); auto|].
    destruct (ok_records s O _ h E) as [[= -> Ei] _]. rewrite <- Ei. now left.
Qed.
Lemma v4_nodup : forall s, scan_ok s -> NoDup (v4_hosts s).
Proof.
  intros s O. unfold v4_hosts, hosts_of. pose proof (ok_hosts s O) as N0. pose proof (ok_records s O) as R. revert N0 R. generalize (sc_hosts s). clear.
  induction l as [|[k h] l IH]; intros N0 R; cbn [map snd flat_map]; [constructor|]. cbn [map fst] in N0. inversion N0 as [|? ? NI N1]; subst.
  assert (R' : forall k' h', In (k', h') l -> k' = (hr_mac h', hr_ip h') /\ NoDup (hr_ports h')) by (intros k' h' I; apply R; now right).
  specialize (IH N1 R'). destruct (hr_ip h) as [a|a] eqn:E; [|exact IH]. cbn [app]. constructor; [|exact IH]. intros I. apply in_flat_map in I. destruct I as (h' & I & J).
  apply in_map_iff in I. destruct I as ([k' h''] & E' & I). cbn [snd] in E'. subst h''. destruct (R' k' h' I) as [Ek' _]. destruct (R k h (or_introl eq_refl)) as [Ek _].
  destruct (hr_ip h') as [b|b] eqn:E2; [|contradiction]. destruct J as [[= Em Ea]|[]]. apply NI. apply in_map_iff. exists (k', h'). split; [|exact I]. cbn [fst]. congruence.
Qed.

Definition discovered (arp icmp : list (N * N)) : scan := add_hosts 2 icmp (add_hosts 1 arp scan_new).
Lemma discovered_ok : forall arp icmp, scan_ok (discovered arp icmp).
Proof. intros. now apply add_hosts_ok, add_hosts_ok, scan_new_ok. Qed.
Definition flags_spec (arp icmp : list (N * N)) (mac a : N) : option N :=
  or_flags (if in_dec v4_pair_dec (mac, a) arp then Some 1 else None) (if in_dec v4_pair_dec (mac, a) icmp then Some 2 else None).
Lemma discovered_flags : forall arp icmp mac i, host_flags (discovered arp icmp) (mac, i) = match i with V4 a => flags_spec arp icmp mac a | V6 _ => None end.
Proof.
  intros arp icmp mac i. unfold discovered, flags_spec. destruct i as [a|a].
  - assert (E1 : host_flags (add_hosts 1 arp scan_new) (mac, V4 a) = if in_dec v4_pair_dec (mac, a) arp then Some 1 else None).
    { destruct (in_dec v4_pair_dec (mac, a) arp) as [I|I]; [now rewrite add_hosts_in by exact I|]. rewrite add_hosts_out; [reflexivity|]. intros b [= <-]. exact I. }
    rewrite <- E1. destruct (in_dec v4_pair_dec (mac, a) icmp) as [I|I]; [now rewrite add_hosts_in by exact I|]. rewrite add_hosts_out; [|intros b [= <-]; exact I].
    destruct (host_flags (add_hosts 1 arp scan_new) (mac, V4 a)); reflexivity.
  - rewrite !add_hosts_out by (intros b X; discriminate). reflexivity.
Qed.
Lemma flags_known : forall arp icmp mac a, flags_spec arp icmp mac a <> None <-> In (mac, a) arp \/ In (mac, a) icmp.
Proof.
  intros. unfold flags_spec. destruct (in_dec v4_pair_dec (mac, a) arp), (in_dec v4_pair_dec (mac, a) icmp); cbn [or_flags]; split; try tauto; intros; discriminate.
Qed.
Lemma network_spec : forall n s, open_ports_in_network n = Some s -> scan_ok s /\ sc_services s = [] /\
  exists arp icmp hosts tcp, net_result n arp icmp hosts tcp /\
    (forall mac i p, has_port s (mac, i) p <-> exists a, i = V4 a /\ In (mac, a, p) tcp) /\
    (forall mac i, has_flag s (mac, i) 0 <-> exists a, i = V4 a /\ In (mac, a) arp) /\
    (forall mac i, has_flag s (mac, i) 1 <-> exists a, i = V4 a /\ In (mac, a) icmp) /\
    (forall mac i, known s (mac, i) <-> exists a, i = V4 a /\ (In (mac, a) hosts \/ exists p, In (mac, a, p) tcp)).
Proof.
  intros n s H. unfold open_ports_in_network in H. destruct (ns_arp n) as [arp|] eqn:A; [|discriminate]. destruct (ns_icmp n) as [icmp|] eqn:C; [|discriminate].
  fold (add_hosts 1 arp scan_new) in H. fold (add_hosts 2 icmp (add_hosts 1 arp scan_new)) in H. fold (discovered arp icmp) in H.
  pose proof (discovered_ok arp icmp) as O. set (s1 := discovered arp icmp) in *. destruct (ns_tcp n (v4_hosts s1)) as [tcp|] eqn:T; [|discriminate]. injection H as <-. fold (add_ports tcp s1).
  assert (K : forall mac a, In (mac, a) (v4_hosts s1) <-> In (mac, a) arp \/ In (mac, a) icmp).
  { intros mac a. rewrite v4_in by exact O. unfold known, s1. rewrite discovered_flags. apply flags_known. }
  split; [now apply add_ports_ok|]. split; [rewrite add_ports_services; unfold s1, discovered; now rewrite !add_hosts_services|].
  exists arp, icmp, (v4_hosts s1), tcp. split; [constructor; try assumption; now apply v4_nodup|]. split; [|split; [|split]].
  - intros mac i p. rewrite add_ports_ports. unfold s1, discovered. rewrite !add_hosts_ports. split; [|auto]. intros [(h & X & _)|H]; [discriminate|exact H].
  - intros mac i. unfold has_flag. destruct (host_flags s1 (mac, i)) as [f|] eqn:E.
    + rewrite (add_ports_flags tcp s1 _ f E). unfold s1 in E. rewrite discovered_flags in E. destruct i as [a|a]; [|discriminate]. unfold flags_spec in E.
      destruct (in_dec v4_pair_dec (mac, a) arp), (in_dec v4_pair_dec (mac, a) icmp); cbn [or_flags] in E; try discriminate; injection E as <-;
        (split; [intros (x & [= <-] & B); first [vm_compute in B; discriminate | exists a; split; [reflexivity|assumption]] | intros (b & [= <-] & I); first [contradiction | eexists; split; reflexivity]]).
    + split.
      * intros (f & X & B). destruct (add_ports_none tcp s1 mac i E) as [[_ Y]|[_ Y]]; rewrite Y in X; [injection X as <-; discriminate|discriminate].
      * intros (a & -> & I). unfold s1 in E. rewrite discovered_flags in E. exfalso. apply (proj2 (flags_known arp icmp mac a)); auto.
  - intros mac i. unfold has_flag. destruct (host_flags s1 (mac, i)) as [f|] eqn:E.
    + rewrite (add_ports_flags tcp s1 _ f E). unfold s1 in E. rewrite discovered_flags in E. destruct i as [a|a]; [|discriminate]. unfold flags_spec in E.
      destruct (in_dec v4_pair_dec (mac, a) arp), (in_dec v4_pair_dec (mac, a) icmp); cbn [or_flags] in E; try discriminate; injection E as <-;
        (split; [intros (x & [= <-] & B); first [vm_compute in B; discriminate | exists a; split; [reflexivity|assumption]] | intros (b & [= <-] & I); first [contradiction | eexists; split; reflexivity]]).
    + split.
      * intros (f & X & B). destruct (add_ports_none tcp s1 mac i E) as [[_ Y]|[_ Y]]; rewrite Y in X; [injection X as <-; discriminate|discriminate].
      * intros (a & -> & I). unfold s1 in E. rewrite discovered_flags in E. exfalso. apply (proj2 (flags_known arp icmp mac a)); auto.
  - intros mac i. unfold known. destruct (host_flags s1 (mac, i)) as [f|] eqn:E.
    + rewrite (add_ports_flags tcp s1 _ f E). split; [|intros _; discriminate]. intros _. unfold s1 in E. rewrite discovered_flags in E. destruct i as [a|a]; [|discriminate].
      exists a. split; [reflexivity|]. left. apply K. apply (proj1 (flags_known arp icmp mac a)). now rewrite E.
    + destruct (add_ports_none tcp s1 mac i E) as [[(a & p & -> & I) Y]|[NI Y]]; rewrite Y.
      * split; [|intros _; discriminate]. intros _. exists a. split; [reflexivity|]. right. eauto.
      * split; [congruence|]. intros (a & -> & [I|[p I]]); [|now apply (NI a p) in I]. apply K in I. apply (proj2 (flags_known arp icmp mac a)) in I. unfold s1 in E. rewrite discovered_flags in E. congruence.
Qed.
(** A failed scan is the failure of one of its parts. *)
Lemma network_fails : forall n, open_ports_in_network n = None <-> forall arp icmp hosts tcp, ~ net_result n arp icmp hosts tcp \/ hosts <> v4_hosts (discovered arp icmp).
Proof.
  intros n. unfold open_ports_in_network. destruct (ns_arp n) as [arp|] eqn:A.
  2: { split; [|reflexivity]. intros _ arp icmp hosts tcp. left. intros [X _ _ _ _]. congruence. }
  destruct (ns_icmp n) as [icmp|] eqn:C.
  2: { split; [|reflexivity]. intros _ arp' icmp hosts tcp. left. intros [_ X _ _ _]. congruence. }
  fold (add_hosts 1 arp scan_new). fold (add_hosts 2 icmp (add_hosts 1 arp scan_new)). fold (discovered arp icmp). pose proof (discovered_ok arp icmp) as O.
  destruct (ns_tcp n (v4_hosts (discovered arp icmp))) as [tcp|] eqn:T.
  - split; [discriminate|]. intros H. exfalso. destruct (H arp icmp (v4_hosts (discovered arp icmp)) tcp) as [X|X]; [|congruence]. apply X. constructor; try assumption; [now apply v4_nodup|].
    intros mac a. rewrite v4_in by exact O. unfold known. rewrite discovered_flags. apply flags_known.
  - split; [|reflexivity]. intros _ arp' icmp' hosts tcp. destruct (list_eq_dec v4_pair_dec hosts (v4_hosts (discovered arp' icmp'))) as [->|X]; [|auto]. left. intros [X1 X2 _ _ X3]. congruence.
Qed.

(** ** All networks *)
Lemma allowed_iff : forall whitelist name, match whitelist with [] => true | _ => existsb (beq name) whitelist end = true <-> allowed whitelist name.
Proof.
  intros whitelist name. unfold allowed. destruct whitelist as [|w r]; [tauto|]. rewrite existsb_exists. split.
  - intros (x & I & E). apply beq_spec in E. subst. auto.
  - intros [X|I]; [discriminate|]. exists name. split; [exact I|]. now apply beq_spec.
Qed.
Lemma or_flags_testbit : forall a b f, or_flags a b = Some f -> forall bit, N.testbit f bit = true <-> (exists x, a = Some x /\ N.testbit x bit = true) \/ (exists x, b = Some x /\ N.testbit x bit = true).
Proof.
  intros [x|] [y|] f H bit; cbn [or_flags] in H; try discriminate; injection H as <-.
  - rewrite N.lor_spec, orb_true_iff. split; [intros [H|H]; [left|right]; eauto|]. intros [(z & [= <-] & B)|(z & [= <-] & B)]; auto.
  - split; [intros H; left; eauto|]. intros [(z & [= <-] & B)|(z & Z & _)]; [exact B|discriminate].
  - split; [intros H; right; eauto|]. intros [(z & Z & _)|(z & [= <-] & B)]; [discriminate|exact B].
Qed.
Lemma merge_flag : forall s o k bit, scan_ok o -> has_flag (merge s o) k bit <-> has_flag s k bit \/ has_flag o k bit.
Proof.
  intros s o k bit O. unfold has_flag. rewrite merge_flags by exact O. split.
  - intros (f & E & B). now apply (proj1 (or_flags_testbit _ _ _ E bit)) in B.
  - intros H. destruct (or_flags (host_flags s k) (host_flags o k)) as [f|] eqn:E.
    + exists f. split; [reflexivity|]. now apply (proj2 (or_flags_testbit _ _ _ E bit)).
    + exfalso. destruct (host_flags s k), (host_flags o k); try discriminate. destruct H as [(f & X & _)|(f & X & _)]; discriminate.
Qed.
Lemma merge_known : forall s o k, scan_ok o -> known (merge s o) k <-> known s k \/ known o k.
Proof.
  intros s o k O. unfold known. rewrite merge_flags by exact O. destruct (host_flags s k), (host_flags o k); cbn [or_flags]; split; intros; try discriminate; auto; try (left; discriminate); try (right; discriminate); tauto.
Qed.
Lemma fold_devices : forall wl devices s0, scan_ok s0 -> sc_services s0 = [] ->
  let s := fold_left (fun s d => if match wl with [] => true | _ => existsb (beq (fst d)) wl end then match open_ports_in_network (snd d) with Some r => merge s r | None => s end else s) devices s0 in
  scan_ok s /\ sc_services s = [] /\
  (forall k p, has_port s k p <-> has_port s0 k p \/ exists r, scanned wl devices r /\ has_port r k p) /\
  (forall k b, has_flag s k b <-> has_flag s0 k b \/ exists r, scanned wl devices r /\ has_flag r k b) /\
  (forall k, known s k <-> known s0 k \/ exists r, scanned wl devices r /\ known r k).
Proof.
  intros wl. induction devices as [|[name n] devices IH]; intros s0 O S0; cbv zeta; cbn [fold_left fst snd].
  - split; [exact O|]. split; [exact S0|]. split; [|split]; intros; (split; [auto|]); intros [H|(r & (? & ? & [] & _) & _)]; exact H.
  - assert (SC : forall r, scanned wl ((name, n) :: devices) r <-> (allowed wl name /\ open_ports_in_network n = Some r) \/ scanned wl devices r).
    { intros r. unfold scanned. split.
      - intros (nm & m & [[= <- <-]|I] & Q & E); [auto|]. right. eauto 6.
      - intros [[Q E]|(nm & m & I & Q & E)]; [exists name, n; split; [now left|auto]|]. exists nm, m. split; [now right|auto]. }
    pose proof (allowed_iff wl name) as AL. destruct (match wl with [] => true | _ => existsb (beq name) wl end).
    + destruct (open_ports_in_network n) as [r|] eqn:E.
      * destruct (network_spec n r E) as (Or & Sr & _). assert (O' : scan_ok (merge s0 r)) by now apply merge_ok.
        assert (S' : sc_services (merge s0 r) = []) by (unfold merge; cbn [sc_services]; rewrite Sr, S0; reflexivity).
        destruct (IH (merge s0 r) O' S') as (A & B & C & D & F). split; [exact A|]. split; [exact B|]. split; [|split]; intros.
        -- rewrite C, merge_ports by exact Or. split.
           ++ intros [[H|H]|(r' & Q & H)]; [auto|right; exists r; rewrite SC; split; [left; split; [now apply AL|reflexivity]|exact H]|right; exists r'; rewrite SC; auto].
           ++ intros [H|(r' & Q & H)]; [auto|]. apply SC in Q. destruct Q as [[_ [= <-]]|Q]; [auto|right; eauto].
        -- rewrite D, merge_flag by exact Or. split.
           ++ intros [[H|H]|(r' & Q & H)]; [auto|right; exists r; rewrite SC; split; [left; split; [now apply AL|reflexivity]|exact H]|right; exists r'; rewrite SC; auto].
           ++ intros [H|(r' & Q & H)]; [auto|]. apply SC in Q. destruct Q as [[_ [= <-]]|Q]; [auto|right; eauto].
        -- rewrite F, merge_known by exact Or. split.
           ++ intros [[H|H]|(r' & Q & H)]; [auto|right; exists r; rewrite SC; split; [left; split; [now apply AL|reflexivity]|exact H]|right; exists r'; rewrite SC; auto].
           ++ intros [H|(r' & Q & H)]; [auto|]. apply SC in Q. destruct Q as [[_ [= <-]]|Q]; [auto|right; eauto].
      * destruct (IH s0 O S0) as (A & B & C & D & F). split; [exact A|]. split; [exact B|]. split; [|split]; intros;
          [rewrite C|rewrite D|rewrite F]; (split; [intros [H|(r & Q & H)]; [auto|right; exists r; rewrite SC; auto] | intros [H|(r & Q & H)]; [auto|]; apply SC in Q; destruct Q as [[_ X]|Q]; [discriminate|right; eauto]]).
    + destruct (IH s0 O S0) as (A & B & C & D & F). assert (NA : ~ allowed wl name) by (intros X; apply AL in X; discriminate).
      split; [exact A|]. split; [exact B|]. split; [|split]; intros;
          [rewrite C|rewrite D|rewrite F]; (split; [intros [H|(r & Q & H)]; [auto|right; exists r; rewrite SC; auto] | intros [H|(r & Q & H)]; [auto|]; apply SC in Q; destruct Q as [[X _]|Q]; [contradiction|right; eauto]]).
Qed.
Lemma open_ports_spec : forall wl devices, let s := find_open_ports wl devices in
  scan_ok s /\ sc_services s = [] /\
  (forall k p, has_port s k p <-> exists r, scanned wl devices r /\ has_port r k p) /\
  (forall k b, has_flag s k b <-> exists r, scanned wl devices r /\ has_flag r k b) /\
  (forall k, known s k <-> exists r, scanned wl devices r /\ known r k).
Proof.
  intros wl devices. destruct (fold_devices wl devices scan_new scan_new_ok eq_refl) as (A & B & C & D & F). cbv zeta. unfold find_open_ports. split; [exact A|]. split; [exact B|]. split; [|split]; intros.
  - rewrite C. split; [|auto]. intros [(h & X & _)|H]; [discriminate|exact H].
  - rewrite D. split; [|auto]. intros [(h & X & _)|H]; [discriminate|exact H].
  - rewrite F. split; [|auto]. intros [H|H]; [now contradict H|exact H].
Qed.
Lemma port_known : forall s k p, has_port s k p -> known s k.
Proof. intros s k p (h & E & _). unfold known, host_flags. rewrite E. discriminate. Qed.

(** ** The report *)
Definition add_services (l : list service) (s : scan) : scan := fold_left (fun r v => add_service v r) l s.
Lemma add_services_app : forall a b s, add_services (a ++ b) s = add_services b (add_services a s).
Proof. intros. apply fold_left_app. Qed.
Lemma add_services_map : forall {A} (f : A -> service) l s, fold_left (fun r c => add_service (f c) r) l s = add_services (map f l) s.
Proof. intros A f. induction l as [|x l IH]; intros s; [reflexivity|]. apply IH. Qed.
Lemma add_services_hosts : forall l s, sc_hosts (add_services l s) = sc_hosts s.
Proof. induction l as [|v l IH]; intros s; [reflexivity|]. unfold add_services. cbn [fold_left]. fold (add_services l (add_service v s)). now rewrite IH. Qed.
Lemma add_services_ok : forall l s, scan_ok s -> scan_ok (add_services l s).
Proof. induction l as [|v l IH]; intros s O; [exact O|]. apply IH. now apply add_service_ok. Qed.
Lemma add_services_at : forall l s i, (forall v, In v l -> to_ident v <> i) -> service_at (add_services l s) i = service_at s i.
Proof.
  induction l as [|v l IH]; intros s i H; [reflexivity|]. unfold add_services. cbn [fold_left]. fold (add_services l (add_service v s)). rewrite IH by (intros w I; apply H; now right).
  rewrite add_service_at. destruct (ident_eq_dec i (to_ident v)) as [->|]; [|reflexivity]. exfalso. apply (H v); [now left|reflexivity].
Qed.
Lemma last_ident : forall l i, (exists a v b, l = a ++ v :: b /\ to_ident v = i /\ forall w, In w b -> to_ident w <> i) \/ (forall v, In v l -> to_ident v <> i).
Proof.
  induction l as [|x l IH]; intros i; [right; intros v []|]. destruct (IH i) as [(a & v & b & -> & E & H)|H].
  - left. exists (x :: a), v, b. auto.
  - destruct (ident_eq_dec (to_ident x) i) as [E|NE].
    + left. exists [], x, l. auto.
    + right. intros v [<-|I]; auto.
Qed.
Lemma add_services_last : forall a v b s, (forall w, In w b -> to_ident w <> to_ident v) -> service_at (add_services (a ++ v :: b) s) (to_ident v) = Some v.
Proof.
  intros a v b s H. rewrite add_services_app. unfold add_services at 1. cbn [fold_left]. fold (add_services b (add_service v (add_services a s))). rewrite add_services_at by exact H.
  rewrite add_service_at. destruct (ident_eq_dec (to_ident v) (to_ident v)); [reflexivity|congruence].
Qed.
Lemma add_services_iff : forall l s i v, sc_services s = [] -> service_at (add_services l s) i = Some v <-> exists a b, l = a ++ v :: b /\ to_ident v = i /\ forall w, In w b -> to_ident w <> i.
Proof.
  intros l s i v S0. split.
  - intros H. destruct (last_ident l i) as [(a & w & b & -> & <- & L)|L].
    + rewrite add_services_last in H by exact L. injection H as <-. exists a, b. auto.
    + rewrite add_services_at in H by exact L. unfold service_at in H. rewrite S0 in H. discriminate.
  - intros (a & b & -> & <- & L). now apply add_services_last.
Qed.

Lemma ports_nodup_rtsp : NoDup RTSP_PORTS.
Proof. unfold RTSP_PORTS. repeat (constructor; [cbn [In]; intros H; decompose [or] H; discriminate || contradiction|]). constructor. Qed.
Lemma ports_nodup_http : NoDup HTTP_PORTS.
Proof. unfold HTTP_PORTS. repeat (constructor; [cbn [In]; intros H; decompose [or] H; discriminate || contradiction|]). constructor. Qed.
Lemma candidate_iff : forall ports a, candidate ports a = true <-> In (sa_port a) ports.
Proof. intros. unfold candidate. rewrite existsb_exists. split; [intros (x & I & E); apply N.eqb_eq in E; congruence|]. intros I. exists (sa_port a). split; [exact I|apply N.eqb_refl]. Qed.

Section Report.
  Variables lossy lc uc : bytes -> bytes.
  Variable describe : saddr -> bytes -> option (rheader * bytes).
  Variable get_header : saddr -> bytes -> option rheader.
  Variable is_rtsp : saddr -> bool.
  Lemma streams_total : forall paths l, exists vs, find_rtsp_streams false lossy lc uc describe paths l = ROk vs /\
    Forall2 (fun c v => find_rtsp_stream false lossy lc uc describe paths (fst c) (snd c) = ROk v) l vs.
  Proof.
    intros paths. induction l as [|[mac a] l (vs & E & F)]; cbn [find_rtsp_streams]; [exists []; split; [reflexivity|constructor]|].
    destruct (probe_total lossy lc uc describe paths mac a) as (v & Ev & _). rewrite Ev, E. exists (v :: vs). split; [reflexivity|]. constructor; [exact Ev|exact F].
  Qed.
  Lemma rtsp_sound : forall s, scan_ok s -> forall mac a, In (mac, a) (rtsp_chosen is_rtsp s) -> has_port s (mac, sa_ip a) (sa_port a) /\ In (sa_port a) RTSP_PORTS /\ is_rtsp a = true.
  Proof.
    intros s O mac a H. unfold rtsp_chosen in H. apply filter_iff in H; [|exact ports_nodup_rtsp]. destruct H as (x & y & E & _).
    assert (I : In (mac, a) (find_rtsp_services is_rtsp (socket_addrs s))) by (rewrite E; apply in_or_app; right; now left). apply filter_In in I. destruct I as [I C]. cbn [snd] in C.
    apply socket_addrs_in in I; [|exact O]. split; [exact I|]. destruct (candidate RTSP_PORTS a) eqn:Q; [|discriminate]. apply candidate_iff in Q. auto.
  Qed.
  Lemma rtsp_complete : forall s, scan_ok s -> forall mac a, has_port s (mac, sa_ip a) (sa_port a) -> In (sa_port a) RTSP_PORTS -> is_rtsp a = true ->
    exists c, In c (rtsp_chosen is_rtsp s) /\ sa_ip (snd c) = sa_ip a /\ (rank RTSP_PORTS (sa_port (snd c)) <= rank RTSP_PORTS (sa_port a))%nat.
  Proof.
    intros s O mac a H P R. assert (I : In (mac, a) (find_rtsp_services is_rtsp (socket_addrs s))).
    { apply filter_In. split; [now apply socket_addrs_in|]. cbn [snd]. apply candidate_iff in P. now rewrite P. }
    destruct (filter_best RTSP_PORTS ports_nodup_rtsp _ _ I) as (c & Ic & _ & E & L). exists c. auto.
  Qed.
  Lemma http_sound : forall s, scan_ok s -> forall mac a, In (mac, a) (http_chosen get_header s) -> has_port s (mac, sa_ip a) (sa_port a) /\ In (sa_port a) HTTP_PORTS /\ get_header a (lit "/") <> None.
  Proof.
    intros s O mac a H. unfold http_chosen in H. apply filter_iff in H; [|exact ports_nodup_http]. destruct H as (x & y & E & _).
    assert (I : In (mac, a) (find_http_services get_header (socket_addrs s))) by (rewrite E; apply in_or_app; right; now left). apply filter_In in I. destruct I as [I C]. cbn [snd] in C.
    apply socket_addrs_in in I; [|exact O]. split; [exact I|]. destruct (candidate HTTP_PORTS a) eqn:Q; [|discriminate]. apply candidate_iff in Q. split; [exact Q|]. unfold is_http in C. destruct (get_header a (lit "/")); discriminate.
  Qed.
  Lemma http_complete : forall s, scan_ok s -> forall mac a, has_port s (mac, sa_ip a) (sa_port a) -> In (sa_port a) HTTP_PORTS -> get_header a (lit "/") <> None ->
    exists c, In c (http_chosen get_header s) /\ sa_ip (snd c) = sa_ip a /\ (rank HTTP_PORTS (sa_port (snd c)) <= rank HTTP_PORTS (sa_port a))%nat.
  Proof.
    intros s O mac a H P R. assert (I : In (mac, a) (find_http_services get_header (socket_addrs s))).
    { apply filter_In. split; [now apply socket_addrs_in|]. cbn [snd]. apply candidate_iff in P. rewrite P. unfold is_http. destruct (get_header a (lit "/")); [reflexivity|now contradict R]. }
    destruct (filter_best HTTP_PORTS ports_nodup_http _ _ I) as (c & Ic & _ & E & L). exists c. auto.
  Qed.
  Definition scan_net := scan_network false lossy lc uc describe get_header is_rtsp.
  Lemma report_spec : forall rp mp wl devices, let s := find_open_ports wl devices in
    exists r streams, scan_net rp mp wl devices = ROk r /\ scan_ok r /\ sc_hosts r = sc_hosts s /\
      Forall2 (fun c v => find_rtsp_stream false lossy lc uc describe rp (fst c) (snd c) = ROk v) (rtsp_chosen is_rtsp s) streams /\
      forall i v, service_at r i = Some v <-> exists a b,
        all_services streams (rtsp_chosen is_rtsp s) (find_mjpeg_streams lc get_header mp (http_chosen get_header s)) (http_chosen get_header s) = a ++ v :: b /\
        to_ident v = i /\ forall w, In w b -> to_ident w <> i.
  Proof.
    intros rp mp wl devices. cbv zeta. destruct (open_ports_spec wl devices) as (O & S0 & _). set (s := find_open_ports wl devices) in *.
    destruct (streams_total rp (rtsp_chosen is_rtsp s)) as (vs & E & F).
    exists (add_services (all_services vs (rtsp_chosen is_rtsp s) (find_mjpeg_streams lc get_header mp (http_chosen get_header s)) (http_chosen get_header s)) s), vs.
    split; [|split; [|split; [|split]]].
    - unfold scan_net, scan_network. fold s. cbv zeta. rewrite E. rewrite !add_services_map. unfold all_services. rewrite !add_services_app. now rewrite !map_id.
    - now apply add_services_ok.
    - apply add_services_hosts.
    - exact F.
    - intros i v. now apply add_services_iff.
  Qed.

  Lemma forall2_in_l : forall {A B} (P : A -> B -> Prop) l l' x, Forall2 P l l' -> In x l -> exists y, In y l' /\ P x y.
  Proof. intros A B P l l' x F. induction F as [|a b l l' H F IH]; intros I; [contradiction|]. destruct I as [<-|I]; [exists b; split; [now left|exact H]|]. destruct (IH I) as (y & J & Q). exists y. split; [now right|exact Q]. Qed.
  Lemma forall2_in_r : forall {A B} (P : A -> B -> Prop) l l' y, Forall2 P l l' -> In y l' -> exists x, In x l /\ P x y.
  Proof. intros A B P l l' y F. induction F as [|a b l l' H F IH]; intros I; [contradiction|]. destruct I as [<-|I]; [exists a; split; [now left|exact H]|]. destruct (IH I) as (x & J & Q). exists x. split; [now right|exact Q]. Qed.
  Lemma mjpeg_in : forall mp l v, In v (find_mjpeg_streams lc get_header mp l) -> exists c, In c l /\ find_mjpeg_path lc get_header mp (fst c) (snd c) = Some v.
  Proof.
    intros mp l v H. apply in_flat_map in H. destruct H as (c & I & J). exists c. split; [exact I|]. destruct (find_mjpeg_path lc get_header mp (fst c) (snd c)) as [w|]; [|contradiction]. destruct J as [<-|[]]. reflexivity.
  Qed.
  Lemma mjpeg_shape : forall mp mac a v, find_mjpeg_path lc get_header mp mac a = Some v -> s_mac v = Some mac /\ s_addr v = Some a /\ (s_type v = MJPEG \/ s_type v = LockedMJPEG).
  Proof.
    intros mp mac a v H. apply mjpeg_first in H. destruct H as (pre & p & post & _ & _ & H). unfold mjpeg_at, get_mjpeg_stream in H. destruct (get_header a p) as [h|]; [|discriminate].
    destruct (mjpeg_stream_type lc h); try discriminate; injection H as <-; cbn; auto.
  Qed.
  (** What a service in the list of all services is, by its type *)
  Lemma all_cases : forall rp mp s streams v,
    Forall2 (fun c v => find_rtsp_stream false lossy lc uc describe rp (fst c) (snd c) = ROk v) (rtsp_chosen is_rtsp s) streams ->
    In v (all_services streams (rtsp_chosen is_rtsp s) (find_mjpeg_streams lc get_header mp (http_chosen get_header s)) (http_chosen get_header s)) ->
    exists c, s_mac v = Some (fst c) /\ s_addr v = Some (snd c) /\
      ((rtsp_family (s_type v) /\ In c (rtsp_chosen is_rtsp s) /\ find_rtsp_stream false lossy lc uc describe rp (fst c) (snd c) = ROk v)
       \/ (s_type v = TCP /\ In c (rtsp_chosen is_rtsp s) /\ v = svc_tcp (fst c) (snd c))
       \/ ((s_type v = MJPEG \/ s_type v = LockedMJPEG) /\ In c (http_chosen get_header s) /\ find_mjpeg_path lc get_header mp (fst c) (snd c) = Some v)
       \/ (s_type v = HTTP /\ In c (http_chosen get_header s) /\ v = svc_http (fst c) (snd c))).
  Proof.
    intros rp mp s streams v F I. unfold all_services in I. rewrite !in_app_iff in I. destruct I as [I|[I|[I|I]]].
    - destruct (forall2_in_r _ _ _ _ F I) as (c & Ic & E). exists c. destruct (probe_total lossy lc uc describe rp (fst c) (snd c)) as (w & Ew & A & B & C). rewrite E in Ew. injection Ew as <-. auto 6.
    - apply in_map_iff in I. destruct I as (c & <- & Ic). exists c. cbn. auto 8.
    - apply mjpeg_in in I. destruct I as (c & Ic & E). exists c. destruct (mjpeg_shape _ _ _ _ E) as (A & B & C). auto 8.
    - apply in_map_iff in I. destruct I as (c & <- & Ic). exists c. cbn. auto 8.
  Qed.
  Lemma report_has : forall l r, (forall i v, service_at r i = Some v <-> exists a b, l = a ++ v :: b /\ to_ident v = i /\ forall w, In w b -> to_ident w <> i) ->
    forall v, In v l -> exists w, service_at r (to_ident v) = Some w /\ In w l /\ to_ident w = to_ident v.
  Proof.
    intros l r H v I. destruct (last_ident l (to_ident v)) as [(a & w & b & E & Q & L)|L]; [|exfalso; now apply (L v I)].
    exists w. split; [apply H; exists a, b; auto|]. split; [rewrite E; apply in_or_app; right; now left|exact Q].
  Qed.
  Lemma chosen_mac_known : forall s, scan_ok s -> forall c, In c (rtsp_chosen is_rtsp s) \/ In c (http_chosen get_header s) -> known s (fst c, sa_ip (snd c)).
  Proof. intros s O [mac a] [I|I]; [apply rtsp_sound in I|apply http_sound in I]; try exact O; destruct I as (H & _); exact (port_known _ _ _ H). Qed.
  (** Where each hardware address has one IP address, nothing is lost. *)
  Lemma report_complete : forall rp mp wl devices, let s := find_open_ports wl devices in
    (forall mac i j, known s (mac, i) -> known s (mac, j) -> i = j) ->
    exists r, scan_net rp mp wl devices = ROk r /\
    (forall mac a, In (mac, a) (rtsp_chosen is_rtsp s) ->
       service_at r (to_ident (svc_tcp mac a)) = Some (svc_tcp mac a) /\
       exists v, find_rtsp_stream false lossy lc uc describe rp mac a = ROk v /\ service_at r (to_ident v) = Some v) /\
    (forall mac a, In (mac, a) (http_chosen get_header s) ->
       service_at r (to_ident (svc_http mac a)) = Some (svc_http mac a) /\
       forall v, find_mjpeg_path lc get_header mp mac a = Some v -> service_at r (to_ident v) = Some v).
  Proof.
    intros rp mp wl devices. cbv zeta. intros U. destruct (report_spec rp mp wl devices) as (r & streams & E & Or & Hr & F & G). cbv zeta in *.
    destruct (open_ports_spec wl devices) as (O & _). set (s := find_open_ports wl devices) in *. exists r. split; [exact E|].
    assert (SAME : forall v w c d, to_ident v = to_ident w -> s_mac v = Some (fst c) -> s_addr v = Some (snd c) -> s_mac w = Some (fst d) -> s_addr w = Some (snd d) ->
              known s (fst c, sa_ip (snd c)) -> known s (fst d, sa_ip (snd d)) -> v = w).
    { intros [t1 m1 a1 p1] [t2 m2 a2 p2] [mc ac] [md ad] Q A B C D K1 K2. unfold to_ident, svc_port in Q. cbn in *. subst. injection Q as Qt Qm Qp Qx. subst.
      assert (X : sa_ip ac = sa_ip ad) by (apply (U md); assumption). destruct ac, ad. cbn in *. congruence. }
    pose proof (report_has _ _ G) as HAS.
    assert (KEEP : forall v c, In v (all_services streams (rtsp_chosen is_rtsp s) (find_mjpeg_streams lc get_header mp (http_chosen get_header s)) (http_chosen get_header s)) ->
              s_mac v = Some (fst c) -> s_addr v = Some (snd c) -> known s (fst c, sa_ip (snd c)) -> service_at r (to_ident v) = Some v).
    { intros v c I A B K. destruct (HAS v I) as (w & W & Iw & Q). destruct (all_cases rp mp s streams w F Iw) as (d & A' & B' & T).
      assert (Kd : known s (fst d, sa_ip (snd d))) by (apply chosen_mac_known; [exact O|]; destruct T as [(_ & T & _)|[(_ & T & _)|[(_ & T & _)|(_ & T & _)]]]; auto).
      rewrite W. f_equal. apply (SAME w v d c Q); assumption. }
    split.
    - intros mac a I. assert (K : known s (mac, sa_ip a)) by (apply (chosen_mac_known s O (mac, a)); auto). split.
      + apply (KEEP _ (mac, a)); try reflexivity; [|exact K]. unfold all_services. rewrite !in_app_iff. right. left. apply in_map_iff. exists (mac, a). auto.
      + destruct (forall2_in_l _ _ _ _ F I) as (v & Iv & Ev). cbn [fst snd] in Ev. exists v. split; [exact Ev|]. destruct (probe_total lossy lc uc describe rp mac a) as (w & Ew & A & B & _). rewrite Ev in Ew. injection Ew as <-.
        apply (KEEP _ (mac, a)); try assumption. unfold all_services. rewrite in_app_iff. auto.
    - intros mac a I. assert (K : known s (mac, sa_ip a)) by (apply (chosen_mac_known s O (mac, a)); auto). split.
      + apply (KEEP _ (mac, a)); try reflexivity; [|exact K]. unfold all_services. rewrite !in_app_iff. right. right. right. apply in_map_iff. exists (mac, a). auto.
      + intros v Ev. destruct (mjpeg_shape _ _ _ _ Ev) as (A & B & _). apply (KEEP _ (mac, a)); try assumption. unfold all_services. rewrite !in_app_iff. right. right. left.
        apply in_flat_map. exists (mac, a). split; [exact I|]. cbn [fst snd]. rewrite Ev. now left.
  Qed.
  (** Nothing is made up. *)
  Lemma report_sound : forall rp mp wl devices r, scan_net rp mp wl devices = ROk r -> let s := find_open_ports wl devices in
    forall i v, service_at r i = Some v -> exists mac a, s_mac v = Some mac /\ s_addr v = Some a /\ to_ident v = i /\ has_port s (mac, sa_ip a) (sa_port a) /\
      ((rtsp_family (s_type v) /\ is_rtsp a = true /\ find_rtsp_stream false lossy lc uc describe rp mac a = ROk v)
       \/ (s_type v = TCP /\ is_rtsp a = true)
       \/ ((s_type v = MJPEG \/ s_type v = LockedMJPEG) /\ get_header a (lit "/") <> None /\ find_mjpeg_path lc get_header mp mac a = Some v)
       \/ (s_type v = HTTP /\ get_header a (lit "/") <> None)).
  Proof.
    intros rp mp wl devices r E. cbv zeta. intros i v H. destruct (report_spec rp mp wl devices) as (r' & streams & E' & Or & Hr & F & G). cbv zeta in *. rewrite E in E'. injection E' as <-.
    destruct (open_ports_spec wl devices) as (O & _). set (s := find_open_ports wl devices) in *. apply G in H. destruct H as (x & y & L & Q & _).
    destruct (all_cases rp mp s streams v F) as ([mac a] & A & B & T); [rewrite L; apply in_or_app; right; now left|]. cbn [fst snd] in *. exists mac, a. split; [exact A|]. split; [exact B|]. split; [exact Q|].
    destruct T as [(T & I & P)|[(T & I & P)|[(T & I & P)|(T & I & P)]]]; (apply rtsp_sound in I || apply http_sound in I); try exact O; destruct I as (X & _ & Z); (split; [exact X|]); auto 8.
  Qed.
End Report.

(** ** Merging again and in the other order *)
Lemma or_flags_assoc : forall a b c, or_flags (or_flags a b) c = or_flags a (or_flags b c).
Proof. intros [x|] [y|] [z|]; cbn [or_flags]; try reflexivity. now rewrite N.lor_assoc. Qed.
Lemma or_flags_comm : forall a b, or_flags a b = or_flags b a.
Proof. intros [x|] [y|]; cbn [or_flags]; try reflexivity. now rewrite N.lor_comm. Qed.
Lemma or_flags_diag : forall a, or_flags a a = a.
Proof. intros [x|]; cbn [or_flags]; [now rewrite N.lor_diag|reflexivity]. Qed.
Lemma merge_again : forall s o, scan_ok s -> scan_ok o -> same_scan (merge (merge s o) o) (merge s o) /\ same_scan (merge s s) s.
Proof.
  intros s o S O. unfold same_scan. repeat split; intros.
  - rewrite !merge_flags by exact O. now rewrite or_flags_assoc, or_flags_diag.
  - rewrite !merge_ports in H by exact O. rewrite merge_ports by exact O. tauto.
  - rewrite merge_ports in H by exact O. rewrite !merge_ports by exact O. tauto.
  - rewrite !merge_services by exact O. destruct (service_at o i); reflexivity.
  - rewrite merge_flags by exact S. apply or_flags_diag.
  - rewrite merge_ports in H by exact S. tauto.
  - rewrite merge_ports by exact S. tauto.
  - rewrite merge_services by exact S. destruct (service_at s i); reflexivity.
Qed.
Lemma merge_swap : forall s o, scan_ok s -> scan_ok o -> (forall i v w, service_at s i = Some v -> service_at o i = Some w -> v = w) -> same_scan (merge s o) (merge o s).
Proof.
  intros s o S O H. repeat split; intros.
  - rewrite !merge_flags by assumption. apply or_flags_comm.
  - rewrite merge_ports in * by assumption. tauto.
  - rewrite merge_ports in * by assumption. tauto.
  - rewrite !merge_services by assumption. specialize (H i). destruct (service_at s i), (service_at o i); try reflexivity. f_equal. symmetry. now apply H.
Qed.
Lemma merge_hosts_swap : forall s o, scan_ok s -> scan_ok o -> (forall k, host_flags (merge s o) k = host_flags (merge o s) k) /\ (forall k p, has_port (merge s o) k p <-> has_port (merge o s) k p).
Proof.
  intros s o S O. split; intros.
  - rewrite !merge_flags by assumption. apply or_flags_comm.
  - rewrite !merge_ports by assumption. tauto.
Qed.

(** ** A device with two addresses *)
Definition two_net : netscan := {| ns_arp := Some [(7, 10); (7, 11)]; ns_icmp := Some []; ns_tcp := fun _ => Some [(7, 10, 554); (7, 11, 554)] |}.
Lemma two_addresses : exists lossy lc uc describe get_header is_rtsp rtsp_paths mjpeg_paths whitelist devices r c,
  scan_network false lossy lc uc describe get_header is_rtsp rtsp_paths mjpeg_paths whitelist devices = ROk r /\
  In c (rtsp_chosen is_rtsp (find_open_ports whitelist devices)) /\
  forall i v, service_at r i = Some v -> forall a, s_addr v = Some a -> sa_ip a <> sa_ip (snd c).
Proof.
  exists (fun s => s), (fun s => s), (fun s => s), (fun _ _ => None), (fun _ _ => None), (fun _ => true), [], [], [], [([], two_net)].
  eexists. exists (7, {| sa_ip := V4 10; sa_port := 554 |}). split; [vm_compute; reflexivity|]. split; [vm_compute; auto|].
  intros i v H a A. unfold service_at in H. apply mget_in in H. cbn [sc_services] in H. cbn [snd sa_ip]. destruct H as [H|[H|[]]]; injection H as _ <-; injection A as <-; discriminate.
Qed.
