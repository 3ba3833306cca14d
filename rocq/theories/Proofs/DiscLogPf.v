(** The log of a scan. *)
From Coq Require Import String NArith List Bool Lia.
From Verif.Model Require Import Bytes Alist Service Control Http Sdp Discovery Logger Journal DiscLog.
From Verif.Spec Require Import DiscoverySpec DiscLogSpec.
From Verif.Proofs Require Import BytesFacts DiscMaps DiscPick DiscReport.
Import ListNotations.
Local Open Scope N_scope.

Lemma arp_same name : arp_rec name = arp_runs name.
Proof. unfold arp_rec, arp_runs, running, say, debug. cbn [concat]. rewrite app_nil_r. reflexivity. Qed.
Lemma icmp_same name : icmp_rec name = icmp_runs name.
Proof. unfold icmp_rec, icmp_runs, running, say, debug. cbn [concat]. rewrite app_nil_r. reflexivity. Qed.
Lemma tcp_same name : tcp_rec name = tcp_runs name.
Proof. unfold tcp_rec, tcp_runs, running, say, debug. cbn [concat]. rewrite app_nil_r. reflexivity. Qed.
Lemma unable_same name err : unable_rec name (pcap_error err) = unable name err.
Proof. unfold unable_rec, unable, say, pcap_error. cbn [concat]. rewrite app_nil_r. reflexivity. Qed.

Lemma discovered_hosts arp icmp : found_hosts arp icmp (v4_hosts (discovered arp icmp)).
Proof.
  pose proof (discovered_ok arp icmp) as O. split; [now apply v4_nodup|].
  intros mac a. rewrite v4_in by exact O. unfold known. rewrite discovered_flags. apply flags_known.
Qed.

(** One network *)
Lemma network_told name n res l : network_log name n = (res, l) ->
  match res with
  | inl s => open_ports_in_network (results n) = Some s /\ told name n l
  | inr e => open_ports_in_network (results n) = None /\ told name n (l ++ [unable_rec name e]) /\
      exists err, fails n err /\ unable_rec name e = unable name err
  end.
Proof.
  unfold network_log, open_ports_in_network, results. cbn [ns_arp ns_icmp ns_tcp].
  destruct (ne_arp n) as [arp|err] eqn:A; cbn [got].
  2: { intros E. injection E as <- <-. rewrite unable_same, arp_same. split; [reflexivity|]. split; [now apply told_arp|].
       exists err. split; [now apply fails_arp|reflexivity]. }
  destruct (ne_icmp n) as [icmp|err] eqn:I; cbn [got].
  2: { intros E. injection E as <- <-. rewrite unable_same, arp_same, icmp_same. split; [reflexivity|]. split; [now apply (told_icmp _ _ arp)|].
       exists err. split; [now apply (fails_icmp _ arp)|reflexivity]. }
  fold (add_hosts 1 arp scan_new). fold (add_hosts 2 icmp (add_hosts 1 arp scan_new)). fold (discovered arp icmp).
  pose proof (discovered_hosts arp icmp) as F.
  destruct (ne_tcp n (v4_hosts (discovered arp icmp))) as [tcp|err] eqn:T; cbn [got]; intros E; injection E as <- <-;
    rewrite ?unable_same, arp_same, icmp_same, tcp_same.
  - split; [reflexivity|]. now apply (told_all _ _ arp icmp (v4_hosts (discovered arp icmp)) tcp).
  - split; [reflexivity|]. split; [now apply (told_tcp _ _ arp icmp (v4_hosts (discovered arp icmp)))|].
    exists err. split; [now apply (fails_tcp _ arp icmp (v4_hosts (discovered arp icmp)))|reflexivity].
Qed.

Lemma network_debug name n res l r : network_log name n = (res, l) -> In r l -> j_sev r = DEBUG.
Proof.
  unfold network_log. destruct (ne_arp n) as [arp|err].
  2: { intros E; injection E as <- <-; intros [<-|[]]; reflexivity. }
  destruct (ne_icmp n) as [icmp|err].
  2: { intros E; injection E as <- <-; intros [<-|[<-|[]]]; reflexivity. }
  destruct (ne_tcp n _); intros E; injection E as <- <-; intros [<-|[<-|[<-|[]]]]; reflexivity.
Qed.

(** All networks *)
Definition warned (whitelist : list bytes) (ds : list (bytes * netres)) (l : list jrec) : Prop :=
  (forall name n, In (name, n) ds -> allowed whitelist name ->
    (exists r, open_ports_in_network (results n) = Some r) \/ (exists err, fails n err /\ In (unable name err) l)) /\
  (forall r, In r l -> j_sev r <> DEBUG -> exists name n err,
    In (name, n) ds /\ allowed whitelist name /\ open_ports_in_network (results n) = None /\ fails n err /\ r = unable name err).

Lemma devices_log wl : forall ds s l0, exists l,
  fold_left (device_log wl) ds (s, l0) =
    (fold_left (fun s d => if match wl with [] => true | _ => existsb (beq (fst d)) wl end then
                             match open_ports_in_network (snd d) with Some r => merge s r | None => s end
                           else s) (plain_devices ds) s, l0 ++ l) /\
  networks_told wl ds l /\ warned wl ds l.
Proof.
  induction ds as [|[name n] ds IH]; intros s l0.
  { exists []. rewrite app_nil_r. split; [reflexivity|]. split; [constructor|]. split; [intros ? ? []|intros ? []]. }
  unfold plain_devices. cbn [fold_left map]. fold (plain_devices ds). unfold device_log at 2. cbn [fst snd].
  pose proof (allowed_iff wl name) as AL.
  destruct (match wl with [] => true | _ => existsb (beq name) wl end).
  - destruct (network_log name n) as [res lg] eqn:E. pose proof (network_told _ _ _ _ E) as T.
    assert (A : allowed wl name) by now apply AL.
    destruct res as [r|e].
    + destruct T as [T1 T2]. rewrite T1. destruct (IH (merge s r) (l0 ++ lg)) as (l & -> & L & W1 & W2).
      exists (lg ++ l). rewrite <- app_assoc. split; [reflexivity|]. split; [now constructor|]. split.
      * intros nm m [X|X] A'; [injection X as <- <-; left; now exists r|].
        destruct (W1 nm m X A') as [Y|(err & Y & Z)]; [now left|right]. exists err. split; [exact Y|]. apply in_or_app. now right.
      * intros x X D. apply in_app_or in X as [X|X]; [exfalso; exact (D (network_debug _ _ _ _ _ E X))|].
        destruct (W2 x X D) as (nm & m & err & I & R). exists nm, m, err. split; [now right|exact R].
    + destruct T as (T1 & T2 & err & T3 & T4). rewrite T1. destruct (IH s (l0 ++ lg ++ [unable_rec name e])) as (l & -> & L & W1 & W2).
      exists ((lg ++ [unable_rec name e]) ++ l). rewrite <- !app_assoc. split; [reflexivity|].
      split; [rewrite app_assoc; now constructor|]. split.
      * intros nm m [X|X] A'.
        -- injection X as <- <-. right. exists err. split; [exact T3|]. rewrite <- T4. apply in_or_app. right. now left.
        -- destruct (W1 nm m X A') as [Y|(err' & Y & Z)]; [now left|right]. exists err'. split; [exact Y|]. apply in_or_app. right. now right.
      * intros x X D. apply in_app_or in X as [X|[X|X]].
        -- exfalso. exact (D (network_debug _ _ _ _ _ E X)).
        -- subst x. exists name, n, err. split; [now left|]. auto.
        -- destruct (W2 x X D) as (nm & m & err' & I & R). exists nm, m, err'. split; [now right|exact R].
  - destruct (IH s l0) as (l & -> & L & W1 & W2). exists l. split; [reflexivity|].
    assert (A : ~ allowed wl name) by (intros X; apply AL in X; discriminate).
    split; [now constructor|]. split.
    + intros nm m [X|X] A'; [injection X as <- <-; contradiction|]. exact (W1 nm m X A').
    + intros x X D. destruct (W2 x X D) as (nm & m & err & I & R). exists nm, m, err. split; [now right|exact R].
Qed.

Lemma ports_log wl ds : exists l, find_open_ports_log wl ds = (find_open_ports wl (plain_devices ds), l) /\
  networks_told wl ds l /\ warned wl ds l.
Proof. destruct (devices_log wl ds scan_new []) as (l & E & R). exists l. split; [exact E|exact R]. Qed.

Lemma networks_log wl ds : networks_told wl ds (snd (find_open_ports_log wl ds)).
Proof. destruct (ports_log wl ds) as (l & -> & L & _). exact L. Qed.

Lemma missing_log wl ds : let l := snd (find_open_ports_log wl ds) in
  (forall name n, In (name, n) ds -> allowed wl name ->
    (exists r, open_ports_in_network (results n) = Some r) \/ (exists err, fails n err /\ In (unable name err) l)) /\
  (forall r, In r l -> j_sev r <> DEBUG -> exists name n err,
    In (name, n) ds /\ allowed wl name /\ open_ports_in_network (results n) = None /\ fails n err /\ r = unable name err).
Proof. cbv zeta. destruct (ports_log wl ds) as (l & -> & _ & W). exact W. Qed.

Lemma scan_log ovf lossy lc uc describe get_header is_rtsp rp mp wl ds :
  let r := scan_network ovf lossy lc uc describe get_header is_rtsp rp mp wl (plain_devices ds) in
  scan_network_log ovf lossy lc uc describe get_header is_rtsp rp mp wl ds =
  (r, snd (find_open_ports_log wl ds) ++ match r with ROk _ => looked_for | _ => firstn 2 looked_for end).
Proof.
  cbv zeta. destruct (ports_log wl ds) as (l & E & _). unfold scan_network_log, scan_network. rewrite E. cbn [snd].
  destruct (find_rtsp_streams _ _ _ _ _ _ _); f_equal; rewrite <- !app_assoc; reflexivity.
Qed.

(** ** What a failure loses *)
Definition fine (d : bytes * netscan) : bool := match open_ports_in_network (snd d) with Some _ => true | None => false end.

Lemma others_kept wl ds : find_open_ports wl ds = find_open_ports wl (filter fine ds).
Proof.
  unfold find_open_ports. generalize scan_new. induction ds as [|d ds IH]; intros s; [reflexivity|].
  cbn [fold_left filter]. unfold fine at 1. destruct (open_ports_in_network (snd d)) as [r|] eqn:E.
  - cbn [fold_left]. rewrite E. apply IH.
  - rewrite <- IH. destruct (match wl with [] => _ | _ => _ end); reflexivity.
Qed.

Lemma failed_omitted wl a b name n : open_ports_in_network n = None ->
  find_open_ports wl (a ++ (name, n) :: b) = find_open_ports wl (a ++ b).
Proof.
  intros F. rewrite others_kept, (others_kept wl (a ++ b)). rewrite !filter_app. cbn [filter].
  unfold fine at 2. cbn [snd]. rewrite F. reflexivity.
Qed.

Lemma others_in wl ds name n r : In (name, n) ds -> allowed wl name -> open_ports_in_network n = Some r ->
  (forall k, known r k -> known (find_open_ports wl ds) k) /\
  (forall k p, has_port r k p -> has_port (find_open_ports wl ds) k p).
Proof.
  intros I A O. destruct (open_ports_spec wl ds) as (_ & _ & P & _ & K).
  assert (S : scanned wl ds r) by (exists name, n; auto).
  split; [intros k H; apply K|intros k p H; apply P]; exists r; auto.
Qed.

Lemma lost_hosts : exists (devices : list (bytes * netscan)) (name : bytes) (n : netscan) (mac a : N) (arp : list (N * N)),
  In (name, n) devices /\ ns_arp n = Some arp /\ In (mac, a) arp /\ ~ known (find_open_ports [] devices) (mac, V4 a).
Proof.
  exists [(lit "eth0"%string, {| ns_arp := Some [(7, 10)]; ns_icmp := Some []; ns_tcp := fun _ => None |})], (lit "eth0"%string).
  exists {| ns_arp := Some [(7, 10)]; ns_icmp := Some []; ns_tcp := fun _ => None |}, 7, 10, [(7, 10)].
  split; [now left|]. split; [reflexivity|]. split; [now left|]. intros K. apply K. reflexivity.
Qed.
