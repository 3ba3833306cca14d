(** Raw packets: the addresses and ports probed, the packet listener. *)
From Coq Require Import NArith ZArith List Bool FinFun Lia ZifyBool ZifyNat ZifyN.
From Verif.Model Require Import Bytes Raw.
From Verif.Spec Require Import RawSpec.
From Verif.Proofs Require Import BytesFacts RawChecks.
Import ListNotations.
Local Open Scope N_scope.

(** ** Addresses *)
Lemma seq_from : forall (n : nat) (a : N), map (fun i => a + N.of_nat i) (seq 1 n) = map (fun i => a + 1 + N.of_nat i) (seq 0 n).
Proof. intros n a. rewrite <- seq_shift, map_map. apply map_ext. intros i. lia. Qed.
Lemma collect_addresses : forall n last current, (N.to_nat (last - current) < n)%nat ->
  collect n (next_address last) current = Some (map (fun i => current + N.of_nat i) (seq 0 (N.to_nat (last - current)))).
Proof.
  induction n as [|n IH]; intros last current H; [lia|]. cbn [collect]. unfold next_address at 1. destruct (N.ltb_spec current last) as [L|L].
  - rewrite IH by lia. cbn [option_map]. replace (N.to_nat (last - current)) with (S (N.to_nat (last - (current + 1)))) by lia.
    cbn [seq map]. rewrite seq_from. rewrite N.add_0_r. reflexivity.
  - replace (N.to_nat (last - current)) with O by lia. reflexivity.
Qed.
Lemma between_in : forall a b x, In x (between_addrs a b) <-> a < x < b.
Proof.
  intros a b x. unfold between_addrs. rewrite in_map_iff. split.
  - intros (i & <- & I). apply in_seq in I. lia.
  - intros H. exists (N.to_nat (x - a - 1)). split; [lia|]. apply in_seq. lia.
Qed.
Lemma between_nodup : forall a b, NoDup (between_addrs a b).
Proof. intros a b. unfold between_addrs. apply FinFun.Injective_map_NoDup; [|apply seq_NoDup]. intros i j H. lia. Qed.
Lemma scan_addresses : forall ovf d, network d < 2 ^ 32 - 1 -> exists first, first_address ovf d = ROk first /\
  forall n, (N.to_nat (2 ^ 32) < n)%nat -> collect n (next_address (end_address d)) first = Some (between_addrs (network d) (broadcast d)) \/ 2 ^ 32 <= broadcast d.
Proof.
  intros ovf d H. exists (network d + 1). split.
  - unfold first_address. apply add_ok. fold (network d). lia.
  - intros n Hn. fold (broadcast d). destruct (N.le_gt_cases (2 ^ 32) (broadcast d)) as [B|B]; [auto|left].
    change (end_address d) with (broadcast d). rewrite collect_addresses by lia. unfold between_addrs. f_equal. f_equal. f_equal. lia.
Qed.
Lemma lor_bound : forall a b k, a < 2 ^ k -> b < 2 ^ k -> N.lor a b < 2 ^ k.
Proof.
  intros a b k Ha Hb. destruct (N.eq_dec (N.lor a b) 0) as [->|NZ]; [apply N.neq_0_lt_0, N.pow_nonzero; discriminate|].
  apply N.log2_lt_pow2; [lia|]. rewrite N.log2_lor.
  assert (P : forall x, x < 2 ^ k -> x <> 0 -> N.log2 x < k) by (intros x Hx Nx; apply N.log2_lt_pow2; [lia|assumption]).
  destruct (N.eq_dec a 0) as [->|Na]; destruct (N.eq_dec b 0) as [->|Nb].
  - exfalso. apply NZ. reflexivity.
  - cbn [N.log2]. rewrite N.max_0_l. now apply P.
  - change (N.log2 0) with 0. rewrite N.max_0_r. now apply P.
  - apply N.max_lub_lt; now apply P.
Qed.
Lemma broadcast_bound : forall d, device_ok d -> broadcast d < 2 ^ 32.
Proof. intros d (_ & A & B). apply lor_bound; [assumption|]. change (2 ^ 32) with 4294967296 in *. lia. Qed.

(** ** Ports *)
Definition left_ports (i : port_iter) : list N := ports_of (Range (pi_port i) (pi_last i)) ++ flat_map ports_of (pi_ranges i).
Lemma range_cons : forall a b, a < b -> ports_of (Range a b) = a :: ports_of (Range (a + 1) b).
Proof.
  intros a b H. cbn [ports_of]. replace (N.to_nat (b - a)) with (S (N.to_nat (b - (a + 1)))) by lia. cbn [seq map]. rewrite seq_from, N.add_0_r. reflexivity.
Qed.
Lemma range_nil : forall a b, b <= a -> ports_of (Range a b) = [].
Proof. intros a b H. cbn [ports_of]. replace (N.to_nat (b - a)) with O by lia. reflexivity. Qed.
Lemma range_of : forall ovf r, range_ok r -> exists a b, to_range ovf r = ROk (a, b) /\ a < b /\ ports_of r = ports_of (Range a b).
Proof.
  intros ovf [p|a b] H; cbn [range_ok] in H.
  - exists p, (p + 1). cbn [to_range]. rewrite add_ok by (change (2 ^ 16) with 65536; lia). cbn [bind]. repeat split; [lia|]. rewrite range_cons by lia. rewrite range_nil by lia. reflexivity.
  - exists a, b. repeat split. lia.
Qed.
Lemma port_next_spec : forall ovf i, Forall range_ok (pi_ranges i) -> exists i', Forall range_ok (pi_ranges i') /\
  port_next ovf i = ROk (hd_error (left_ports i), i') /\ left_ports i' = tl (left_ports i).
Proof.
  intros ovf [rs l p] H. cbn [pi_ranges] in H. unfold port_next, left_ports. cbn [pi_ranges pi_last pi_port].
  destruct (N.leb_spec l p) as [E|E].
  - rewrite (range_nil p l E). cbn [app]. destruct rs as [|r rs].
    + cbn [bind flat_map hd_error tl pi_port pi_last]. destruct (N.ltb_spec p l); [lia|]. eexists. split; [|split; [reflexivity|]]; [constructor|]. cbn [pi_port pi_last pi_ranges]. rewrite range_nil by assumption. reflexivity.
    + inversion H; subst. destruct (range_of ovf r) as (a & b & -> & L & P); [assumption|]. cbn [bind fst snd pi_port pi_last pi_ranges flat_map]. rewrite P.
      destruct (N.ltb_spec a b); [|lia]. rewrite (range_cons a b L). cbn [app hd_error tl]. eexists. split; [|split; [reflexivity|]]; [assumption|]. reflexivity.
  - cbn [bind pi_port pi_last pi_ranges]. destruct (N.ltb_spec p l); [|lia]. rewrite (range_cons p l E). cbn [app hd_error tl]. eexists. split; [|split; [reflexivity|]]; [assumption|]. reflexivity.
Qed.
Lemma tcp_generate_spec : forall ovf d c, Forall range_ok c -> forall n hosts i, Forall range_ok (pi_ranges i) ->
  (length (left_ports i) + length hosts * S (length (flat_map ports_of c)) < n)%nat ->
  tcp_generate n ovf d c hosts i = ROk (match hosts with
                                       | [] => []
                                       | h :: hs => map (tcp_request d h) (left_ports i) ++ map (fun x => tcp_request d (fst x) (snd x)) (pairs hs c)
                                       end).
Proof.
  intros ovf d c Hc. induction n as [|n IH]; intros hosts i Hi Hn; [lia|]. cbn [tcp_generate]. destruct hosts as [|h hs]; [reflexivity|].
  destruct (port_next_spec ovf i Hi) as (i' & Hi' & -> & L). cbn [bind]. destruct (left_ports i) as [|p ps] eqn:E; cbn [hd_error tl] in *.
  - assert (LP : left_ports (ports_iter c) = flat_map ports_of c) by reflexivity.
    rewrite (IH hs (ports_iter c)); [|assumption|].
    + destruct hs as [|h' hs']; [reflexivity|]. cbn [map app]. rewrite LP. unfold pairs. cbn [flat_map]. rewrite map_app, map_map. reflexivity.
    + rewrite LP. cbn [length] in Hn. destruct hs; cbn [length] in *; lia.
  - rewrite (IH (h :: hs) i'); [|assumption|rewrite L; cbn [length] in *; lia]. rewrite L. reflexivity.
Qed.
Lemma tcp_generate_all : forall ovf d c hosts, Forall range_ok c -> exists n0, forall n, (n0 <= n)%nat ->
  tcp_generate n ovf d c hosts (ports_iter c) = ROk (map (fun x => tcp_request d (fst x) (snd x)) (pairs hosts c)).
Proof.
  intros ovf d c hosts Hc. exists (S (length (flat_map ports_of c) + length hosts * S (length (flat_map ports_of c)))). intros n Hn.
  rewrite (tcp_generate_spec ovf d c Hc); [|assumption|exact Hn]. destruct hosts as [|h hs]; [reflexivity|].
  unfold pairs. cbn [flat_map]. rewrite map_app, map_map. reflexivity.
Qed.
Lemma ports_in : forall r p, In p (ports_of r) <-> match r with Single q => p = q | Range a b => a <= p < b end.
Proof.
  intros [q|a b] p; cbn [ports_of].
  - cbn [In]. intuition.
  - rewrite in_map_iff. split.
    + intros (i & <- & I). apply in_seq in I. lia.
    + intros H. exists (N.to_nat (p - a)). split; [lia|]. apply in_seq. lia.
Qed.

(** ** The packet listener *)
Definition stays (soft : N) (total : option N) (start last : N) (pre : list round) : Prop :=
  forall a b, pre = a ++ b -> a <> [] -> ~ exceeded soft total start last a.
Lemma exceeded_one : forall soft total start last f t1 t2 t3,
  exceeded soft total start last [Rd f t1 t2 t3] <->
  (exists t, total = Some t /\ t < t2 - start) \/ soft < t3 - match f with Some _ => t1 | None => last end.
Proof.
  intros. unfold exceeded. split.
  - intros (pre & f' & a & b & c & E & H). destruct pre as [|x [|y pre]]; try discriminate E. injection E as <- <- <- <-. destruct f; exact H.
  - intros H. exists [], f, t1, t2, t3. split; [reflexivity|]. destruct f; exact H.
Qed.
Lemma exceeded_cons : forall soft total start last f t1 t2 t3 l, l <> [] ->
  (exceeded soft total start last (Rd f t1 t2 t3 :: l) <-> exceeded soft total start (match f with Some _ => t1 | None => last end) l).
Proof.
  intros soft total start last f t1 t2 t3 l Hl.
  assert (Q : last_frame last (Rd f t1 t2 t3 :: l) = last_frame (match f with Some _ => t1 | None => last end) l) by (destruct f; reflexivity).
  unfold exceeded. rewrite Q. split.
  - intros (pre & g & a & b & c & E & H). destruct pre as [|x pre]; [injection E as _ _ _ _ E; congruence|]. injection E as _ E. exists pre, g, a, b, c. auto.
  - intros (pre & g & a & b & c & E & H). exists (Rd f t1 t2 t3 :: pre), g, a, b, c. split; [now rewrite E|exact H].
Qed.
Lemma stays_cons : forall soft total start last f t1 t2 t3 l,
  stays soft total start last (Rd f t1 t2 t3 :: l) <-> ~ exceeded soft total start last [Rd f t1 t2 t3] /\ stays soft total start (match f with Some _ => t1 | None => last end) l.
Proof.
  intros. unfold stays. split.
  - intros H. split; [apply (H [_] l); [reflexivity|discriminate]|]. intros a b -> Ha E. apply (H (Rd f t1 t2 t3 :: a) b); [reflexivity|discriminate|]. apply exceeded_cons; assumption.
  - intros [H1 H2] a b E Ha X. destruct a as [|x a]; [congruence|]. injection E as <- E. destruct a as [|y a]; [now apply H1|].
    apply (H2 (y :: a) b E); [discriminate|]. apply exceeded_cons in X; [exact X|discriminate].
Qed.
Lemma decide_exceeded : forall soft total start last f t1 t2 t3,
  let last' := match f with Some _ => t1 | None => last end in
  let test1 := match total with Some t => t <? t2 - start | None => false end in
  let test2 := soft <? t3 - last' in
  (test1 = true \/ test2 = true <-> exceeded soft total start last [Rd f t1 t2 t3]).
Proof.
  intros. rewrite exceeded_one. unfold test1, test2, last'. rewrite N.ltb_lt. destruct total as [t|].
  - rewrite N.ltb_lt. split; (intros [H|H]; [left|right; assumption]); [eauto|]. destruct H as (t' & E & H). injection E as <-. assumption.
  - split; (intros [H|H]; [|right; assumption]); [discriminate|]. destruct H as (t' & E & _). discriminate.
Qed.
Definition step_acc (f : option bytes) (acc : list packet) : list packet := acc ++ parsed (match f with Some f => [f] | None => [] end).
Lemma listen_cons : forall soft total start last f t1 t2 t3 r acc, readable (Rd f t1 t2 t3) ->
  (exceeded soft total start last [Rd f t1 t2 t3] /\ listen soft total start last (Rd f t1 t2 t3 :: r) acc = Stopped (step_acc f acc)) \/
  (~ exceeded soft total start last [Rd f t1 t2 t3] /\
   listen soft total start last (Rd f t1 t2 t3 :: r) acc = listen soft total start (match f with Some _ => t1 | None => last end) r (step_acc f acc)).
Proof.
  intros soft total start last f t1 t2 t3 r acc R.
  pose proof (decide_exceeded soft total start last f t1 t2 t3) as D. cbv zeta in D. cbn [listen]. cbv zeta.
  set (test1 := match total with Some t => t <? t2 - start | None => false end) in *.
  unfold step_acc, parsed. destruct f as [f|]; cbn [flat_map].
  - destruct (packet_parse f) as [p| |] eqn:E; cbn [app]; [| |exfalso; apply R; exact E].
    + destruct test1; [left; split; [apply D; auto|reflexivity]|]. destruct (soft <? t3 - t1); [left; split; [apply D; auto|reflexivity]|right; split; [|reflexivity]].
      intros X. apply D in X. destruct X; discriminate.
    + rewrite app_nil_r. destruct test1; [left; split; [apply D; auto|reflexivity]|]. destruct (soft <? t3 - t1); [left; split; [apply D; auto|reflexivity]|right; split; [|reflexivity]].
      intros X. apply D in X. destruct X; discriminate.
  - rewrite app_nil_r. destruct test1; [left; split; [apply D; auto|reflexivity]|]. destruct (soft <? t3 - last); [left; split; [apply D; auto|reflexivity]|right; split; [|reflexivity]].
    intros X. apply D in X. destruct X; discriminate.
Qed.
Lemma frames_cons : forall f t1 t2 t3 l, frames (Rd f t1 t2 t3 :: l) = (match f with Some f => [f] | None => [] end) ++ frames l.
Proof. intros [f|] t1 t2 t3 l; reflexivity. Qed.
Lemma parsed_app : forall a b, parsed (a ++ b) = parsed a ++ parsed b.
Proof. intros. apply flat_map_app. Qed.

Lemma listen_stopped : forall soft total start rounds last acc l,
  listen soft total start last rounds acc = Stopped l <->
  exists pre r post, rounds = pre ++ r :: post /\ Forall readable (pre ++ [r]) /\ stays soft total start last pre /\
    exceeded soft total start last (pre ++ [r]) /\ l = acc ++ parsed (frames (pre ++ [r])).
Proof.
  intros soft total start. induction rounds as [|x rounds IH]; intros last acc l.
  - cbn [listen]. split; [discriminate|]. intros (pre & r & post & E & _). destruct pre; discriminate.
  - destruct x as [f t1 t2 t3|].
    2:{ cbn [listen]. split; [discriminate|]. intros (pre & r & post & E & F & _). exfalso. destruct pre as [|y pre]; injection E as <- _; inversion F; subst; contradiction. }
    assert (RD : readable (Rd f t1 t2 t3) \/ exists g, f = Some g /\ packet_parse g = RPanic).
    { destruct f as [g|]; cbn [readable]; [|auto]. destruct (packet_parse g) eqn:E; [left; discriminate|left; discriminate|right; eauto]. }
    destruct RD as [RD|(g & -> & EP)].
    2:{ cbn [listen]. rewrite EP. split; [discriminate|]. intros (pre & r & post & E & F & _). exfalso. destruct pre as [|y pre]; injection E as <- _; inversion F as [|? ? R _]; subst; apply R; exact EP. }
    destruct (listen_cons soft total start last f t1 t2 t3 rounds acc RD) as [[X ->]|[X ->]].
    + split.
      * intros E. injection E as <-. exists [], (Rd f t1 t2 t3), rounds. split; [reflexivity|]. split; [now constructor|]. split; [intros a b E; destruct a; [congruence|discriminate]|]. split; [exact X|].
        unfold step_acc. cbn [app]. rewrite frames_cons. cbn [frames flat_map]. rewrite app_nil_r. reflexivity.
      * intros (pre & r & post & E & F & S & Y & ->). destruct pre as [|y pre].
        -- injection E as <- <-. unfold step_acc. cbn [app]. rewrite frames_cons. cbn [frames flat_map]. rewrite app_nil_r. reflexivity.
        -- injection E as <- E. apply stays_cons in S. tauto.
    + rewrite IH. split.
      * intros (pre & r & post & -> & F & S & Y & ->). exists (Rd f t1 t2 t3 :: pre), r, post. split; [reflexivity|]. split; [now constructor|]. split; [apply stays_cons; auto|].
        split; [cbn [app]; apply exceeded_cons; [destruct pre; discriminate|exact Y]|]. cbn [app]. rewrite frames_cons, parsed_app. unfold step_acc. now rewrite app_assoc.
      * intros (pre & r & post & E & F & S & Y & ->). destruct pre as [|y pre]; [injection E as <- <-; contradiction|]. injection E as <- ->.
        cbn [app] in *. inversion F; subst. apply stays_cons in S. apply exceeded_cons in Y; [|destruct pre; discriminate].
        exists pre, r, post. split; [reflexivity|]. split; [assumption|]. split; [tauto|]. split; [exact Y|]. rewrite frames_cons, parsed_app. unfold step_acc. now rewrite app_assoc.
Qed.
Lemma listen_running : forall soft total start rounds last acc, listen soft total start last rounds acc = Running <-> Forall readable rounds /\ stays soft total start last rounds.
Proof.
  intros soft total start. induction rounds as [|x rounds IH]; intros last acc.
  - cbn [listen]. split; [|reflexivity]. intros _. split; [constructor|]. intros a b E. destruct a; [congruence|discriminate].
  - destruct x as [f t1 t2 t3|].
    2:{ cbn [listen]. split; [discriminate|]. intros [F _]. inversion F; subst; contradiction. }
    assert (RD : readable (Rd f t1 t2 t3) \/ exists g, f = Some g /\ packet_parse g = RPanic).
    { destruct f as [g|]; cbn [readable]; [|auto]. destruct (packet_parse g) eqn:E; [left; discriminate|left; discriminate|right; eauto]. }
    destruct RD as [RD|(g & -> & EP)].
    2:{ cbn [listen]. rewrite EP. split; [discriminate|]. intros [F _]. exfalso. inversion F as [|? ? R _]; subst; apply R; exact EP. }
    rewrite stays_cons. destruct (listen_cons soft total start last f t1 t2 t3 rounds acc RD) as [[X ->]|[X ->]].
    + split; [discriminate|tauto].
    + rewrite IH. split.
      * intros [F S]. split; [now constructor|tauto].
      * intros [F [_ S]]. inversion F; subst. tauto.
Qed.
Lemma hard_limit : forall soft t start rounds last acc f t1 t2 t3, In (Rd f t1 t2 t3) rounds -> start + t < t2 -> listen soft (Some t) start last rounds acc <> Running.
Proof.
  intros soft t start rounds last acc f t1 t2 t3 I H E. apply listen_running in E. destruct E as [_ S]. apply in_split in I. destruct I as (a & b & ->).
  apply (S (a ++ [Rd f t1 t2 t3]) b); [now rewrite <- app_assoc|destruct a; discriminate|]. exists a, f, t1, t2, t3. split; [reflexivity|]. left. exists t. split; [reflexivity|lia].
Qed.
