(** Whole scans: the scans of one device. *)
From Coq Require Import String NArith ZArith List Bool Lia ZifyBool ZifyNat ZifyN.
From Verif.Model Require Import Bytes Text Mac Service Control Discovery Raw Scan.
From Verif.Spec Require Import RawSpec DiscoverySpec ScanSpec.
From Verif.Proofs Require Import BytesFacts RawSums RawChecks RawRound RawParse RawGen RawScan RawLayout DecFacts TableJsonPf ScanFrames.
Import ListNotations.
Local Open Scope N_scope.
Local Open Scope list_scope.

(** ** Filters *)
Lemma no_digit : forall c n, ~ (48 <= c <= 57) -> ~ In c (print_dec n).
Proof. intros c n H I. pose proof (dec_digits n) as D. rewrite Forall_forall in D. apply D in I. unfold is_digit in I. lia. Qed.
Lemma dotted_address : forall a, a < 2 ^ 32 -> address (dotted a) = Some a.
Proof.
  intros a H. unfold address, dotted. rewrite be32_eq by exact H. unfold be32. cbn [map].
  rewrite split_join; [|discriminate|repeat (apply Forall_cons; [apply no_digit; lia|]); apply Forall_nil]. cbn [map]. unfold number.
  assert (B1 : a / 2 ^ 24 < 256) by (apply N.div_lt_upper_bound; [discriminate|exact H]).
  pose proof (N.mod_lt (a / 2 ^ 16) 256 ltac:(discriminate)). pose proof (N.mod_lt (a / 2 ^ 8) 256 ltac:(discriminate)). pose proof (N.mod_lt a 256 ltac:(discriminate)).
  rewrite !dec_parse by lia. f_equal. change (2 ^ 24) with 16777216 in *. change (2 ^ 16) with 65536 in *. change (2 ^ 8) with 256 in *. clear. Z.div_mod_to_equations. lia.
Qed.
Lemma no_space_dotted : forall a, ~ In 32 (dotted a).
Proof.
  intros a I. unfold dotted in I. assert (G : forall l, ~ In 32 (join [46] (map print_dec l))); [|exact (G _ I)]. clear. intros l. induction l as [|x l IH]; [intros []|]. intros I. cbn [map join] in I.
  destruct (map print_dec l) as [|y m] eqn:E; [now apply (no_digit 32 x) in I; [|lia]|]. apply in_app_or in I. destruct I as [I|I]; [now apply (no_digit 32 x) in I; [|lia]|].
  apply in_app_or in I. destruct I as [I|I]; [cbn [In] in I; lia|]. now apply IH.
Qed.
Lemma hex_big : forall x, 48 <= hex_digit x.
Proof. intros x. unfold hex_digit. destruct (x <? 10); lia. Qed.
Lemma no_space_mac : forall m, ~ In 32 (mac_print m).
Proof.
  intros m I. unfold mac_print in I. assert (G : forall l, ~ In 32 (join [58] (map hex2 l))); [|exact (G _ I)]. clear. intros l. induction l as [|x l IH]; [intros []|]. intros I.
  assert (Q : ~ In 32 (hex2 x)) by (unfold hex2; cbn [In]; pose proof (hex_big (x / 16)); pose proof (hex_big (x mod 16)); lia).
  cbn [map join] in I. destruct (map hex2 l) as [|y k] eqn:E; [contradiction|]. apply in_app_or in I. destruct I as [I|I]; [contradiction|].
  apply in_app_or in I. destruct I as [I|I]; [cbn [In] in I; lia|]. now apply IH.
Qed.
Lemma word_mac : forall m, m < 2 ^ 48 -> beq (mac_print m) (lit "and") = false.
Proof. intros m H. destruct (beq (mac_print m) (lit "and")) eqn:E; [|reflexivity]. apply beq_spec in E. pose proof (mac_roundtrip m H) as R. rewrite E in R. discriminate R. Qed.
Lemma word_dotted : forall a, a < 2 ^ 32 -> beq (dotted a) (lit "and") = false.
Proof. intros a H. destruct (beq (dotted a) (lit "and")) eqn:E; [|reflexivity]. apply beq_spec in E. pose proof (dotted_address a H) as R. rewrite E in R. discriminate R. Qed.

Lemma arp_words : forall d, split_on 32 (arp_filter d) = [lit "arp"; lit "and"; lit "ether"; lit "dst"; mac_print (dv_mac d)].
Proof. intros d. unfold arp_filter. generalize (no_space_mac (dv_mac d)). generalize (mac_print (dv_mac d)). intros t H. apply split_none in H. cbn - [split_on N.eqb]. cbn [split_on N.eqb Pos.eqb]. rewrite H. reflexivity. Qed.
Lemma icmp_words : forall d, split_on 32 (icmp_filter d) = [lit "icmp"; lit "and"; lit "icmp[icmptype]"; lit "="; lit "icmp-echoreply"; lit "and"; lit "ip"; lit "dst"; dotted (dv_ip d)].
Proof. intros d. unfold icmp_filter. generalize (no_space_dotted (dv_ip d)). generalize (dotted (dv_ip d)). intros t H. apply split_none in H. cbn - [split_on N.eqb]. cbn [split_on N.eqb Pos.eqb]. rewrite H. reflexivity. Qed.
Lemma tcp_words : forall d, split_on 32 (tcp_filter d) =
  [lit "tcp"; lit "and"; lit "dst"; lit "host"; dotted (dv_ip d); lit "and"; lit "dst"; lit "port"; lit "61234"; lit "and";
   lit "tcp[tcpflags]"; lit "&"; lit "tcp-syn"; lit "!="; lit "0"; lit "and"; lit "tcp[tcpflags]"; lit "&"; lit "tcp-ack"; lit "!="; lit "0"].
Proof.
  intros d. unfold tcp_filter. generalize (no_space_dotted (dv_ip d)). generalize (dotted (dv_ip d)). intros t H. replace (print_dec SPORT) with (lit "61234") by reflexivity.
  assert (H' := fun r => split_app 32 t r H). cbn - [split_on N.eqb app]. cbn [app split_on N.eqb Pos.eqb]. rewrite H'. reflexivity.
Qed.
Lemma words_and : forall r l, primitives r = l -> primitives (lit "and" :: r) = [] :: l.
Proof. intros r l <-. reflexivity. Qed.
Lemma words_word : forall w r p q, beq w (lit "and") = false -> primitives r = p :: q -> primitives (w :: r) = (w :: p) :: q.
Proof. intros w r p q H E. cbn [primitives]. rewrite H, E. reflexivity. Qed.
Ltac by_words W := repeat first [apply words_and | apply words_word; [first [exact W | reflexivity]|]]; reflexivity.
Lemma arp_means : forall d, device_ok d -> means (arp_filter d) (fun f => is_arp f /\ eth_dst f = dv_mac d).
Proof.
  intros d (M & _). exists [is_arp; fun f => eth_dst f = dv_mac d]. rewrite arp_words. pose proof (word_mac _ M) as W. pose proof (mac_roundtrip _ M) as R. generalize dependent (mac_print (dv_mac d)). intros t W R.
  split; [|intros f; rewrite !Forall_cons_iff; intuition auto].
  assert (P2 : primitive [lit "ether"; lit "dst"; t] = option_map (fun m f => eth_dst f = m) (mac_parse t)) by reflexivity. rewrite R in P2. cbn [option_map] in P2.
  match goal with |- map primitive (primitives ?l) = _ => assert (PR : primitives l = [[lit "arp"]; [lit "ether"; lit "dst"; t]]) by (by_words W) end.
  rewrite PR. cbn [map]. rewrite P2. reflexivity.
Qed.
Lemma icmp_means : forall d, device_ok d ->
  means (icmp_filter d) (fun f => (is_ip f /\ ip_proto f = 1) /\ (is_ip f /\ ip_proto f = 1 /\ byte_at f (inside f) = 0) /\ is_ip f /\ ip_dst f = dv_ip d).
Proof.
  intros d (_ & M & _). exists [(fun f => is_ip f /\ ip_proto f = 1); (fun f => is_ip f /\ ip_proto f = 1 /\ byte_at f (inside f) = 0); (fun f => is_ip f /\ ip_dst f = dv_ip d)].
  rewrite icmp_words. pose proof (word_dotted _ M) as W. pose proof (dotted_address _ M) as R. generalize dependent (dotted (dv_ip d)). intros t W R.
  split; [|intros f; rewrite !Forall_cons_iff; intuition auto].
  assert (P2 : primitive [lit "ip"; lit "dst"; t] = option_map (fun x f => is_ip f /\ ip_dst f = x) (address t)) by reflexivity. rewrite R in P2. cbn [option_map] in P2.
  match goal with |- map primitive (primitives ?l) = _ => assert (PR : primitives l = [[lit "icmp"]; [lit "icmp[icmptype]"; lit "="; lit "icmp-echoreply"]; [lit "ip"; lit "dst"; t]]) by (by_words W) end.
  rewrite PR. cbn [map]. rewrite P2. reflexivity.
Qed.
Definition tcp_meaning (d : device) (f : bytes) : Prop :=
  (is_ip f /\ ip_proto f = 6 \/ num f 12 2 = 34525) /\ (is_ip f /\ ip_dst f = dv_ip d \/ is_arp f \/ num f 12 2 = 32821) /\
  (is_ip f -> port_to f = 61234) /\ (is_ip f -> N.testbit (tcp_bits f) 1 = true) /\ (is_ip f -> N.testbit (tcp_bits f) 4 = true).
Lemma tcp_means : forall d, device_ok d -> means (tcp_filter d) (tcp_meaning d).
Proof.
  intros d (_ & M & _). exists [(fun f => is_ip f /\ ip_proto f = 6 \/ num f 12 2 = 34525); (fun f => is_ip f /\ ip_dst f = dv_ip d \/ is_arp f \/ num f 12 2 = 32821);
    (fun f => is_ip f -> port_to f = 61234); (fun f => is_ip f -> N.testbit (tcp_bits f) 1 = true); (fun f => is_ip f -> N.testbit (tcp_bits f) 4 = true)].
  rewrite tcp_words. pose proof (word_dotted _ M) as W. pose proof (dotted_address _ M) as R. generalize dependent (dotted (dv_ip d)). intros t W R.
  split; [|intros f; unfold tcp_meaning; rewrite !Forall_cons_iff; pose proof (Forall_nil (fun Q : bytes -> Prop => Q f)); tauto].
  assert (P2 : primitive [lit "dst"; lit "host"; t] = option_map (fun x f => is_ip f /\ ip_dst f = x \/ is_arp f \/ num f 12 2 = 32821) (address t)) by reflexivity.
  assert (P3 : primitive [lit "dst"; lit "port"; lit "61234"] = option_map (fun p f => is_ip f -> port_to f = p) (number 65535 (lit "61234"))) by reflexivity.
  assert (P3' : number 65535 (lit "61234") = Some 61234) by reflexivity. rewrite P3' in P3. rewrite R in P2. cbn [option_map] in P2, P3.
  match goal with |- map primitive (primitives ?l) = _ => assert (PR : primitives l = [[lit "tcp"]; [lit "dst"; lit "host"; t]; [lit "dst"; lit "port"; lit "61234"];
    [lit "tcp[tcpflags]"; lit "&"; lit "tcp-syn"; lit "!="; lit "0"]; [lit "tcp[tcpflags]"; lit "&"; lit "tcp-ack"; lit "!="; lit "0"]]) by (by_words W) end.
  rewrite PR. cbn [map]. rewrite P2, P3. reflexivity.
Qed.

(** ** Addresses *)
Lemma collect_addresses : forall last n first, (N.to_nat (last - first) < n)%nat -> first <= last ->
  collect n (next_address last) first = Some (map (fun i => first + N.of_nat i) (seq 0 (N.to_nat (last - first)))).
Proof.
  intros last. induction n as [|n IH]; intros first L F; [lia|]. cbn [collect]. unfold next_address at 1. destruct (N.ltb_spec first last) as [H|H].
  - rewrite IH by lia. cbn [option_map]. replace (N.to_nat (last - first)) with (S (N.to_nat (last - (first + 1)))) by lia. cbn [seq map].
    rewrite <- seq_shift, map_map. do 2 f_equal; [lia|]. apply map_ext. intros i. lia.
  - replace (N.to_nat (last - first)) with O by lia. reflexivity.
Qed.
Lemma targets_between : forall ovf d, netted d -> targets ovf d = ROk (between_addrs (network d) (broadcast d)).
Proof.
  intros ovf d [DO H]. unfold targets, first_address. fold (network d). rewrite add_ok by (change (2 ^ 32) with 4294967296 in *; lia). cbn [bind].
  change (end_address d) with (broadcast d). unfold between_addrs. destruct (N.leb_spec (network d + 1) (broadcast d)) as [L|L].
  - rewrite collect_addresses by lia. replace (broadcast d - (network d + 1)) with (broadcast d - network d - 1) by lia. reflexivity.
  - replace (N.to_nat (broadcast d - (network d + 1))) with O by lia. replace (N.to_nat (broadcast d - network d - 1)) with O by lia. cbn [collect].
    unfold next_address. destruct (N.ltb_spec (network d + 1) (broadcast d)); [lia|]. reflexivity.
Qed.
Lemma between_bound : forall d x, device_ok d -> In x (between_addrs (network d) (broadcast d)) -> x < 2 ^ 32.
Proof. intros d x O I. apply between_in in I. pose proof (broadcast_bound d O). lia. Qed.

(** ** Frames sent *)
Lemma serialized_map : forall {A} (g : A -> packet) (P : A -> bytes -> Prop) ovf l,
  (forall x, In x l -> exists b, packet_bytes ovf (g x) = ROk b /\ P x b) -> exists bs, serialized ovf (map g l) = ROk bs /\ Forall2 P l bs.
Proof.
  intros A g P ovf. induction l as [|x l IH]; intros H; [exists []; split; [reflexivity|constructor]|]. cbn [map serialized].
  destruct (H x (or_introl eq_refl)) as (b & -> & Pb). destruct IH as (bs & -> & F); [intros y I; apply H; now right|]. cbn [bind]. exists (b :: bs). split; [reflexivity|now constructor].
Qed.
Lemma forall2_map : forall {A B} (g : A -> B) l bs, Forall2 (fun x b => b = g x) l bs -> bs = map g l.
Proof. intros A B g. induction 1; [reflexivity|]. cbn [map]. now subst. Qed.

Lemma candidates_eq : PORT_CANDIDATES = camera_ports.
Proof. reflexivity. Qed.
Definition singles : list port_range := map Single PORT_CANDIDATES.
Lemma singles_ok : Forall range_ok singles.
Proof. unfold singles. rewrite candidates_eq. unfold camera_ports. cbn [map]. repeat (apply Forall_cons; [reflexivity|]). apply Forall_nil. Qed.
Lemma singles_ports : forall l, flat_map ports_of (map Single l) = l.
Proof. induction l as [|x l IH]; [reflexivity|]. cbn [map flat_map ports_of app]. now rewrite IH. Qed.
Lemma pairs_singles : forall hosts, pairs hosts singles = list_prod hosts camera_ports.
Proof.
  intros hosts. unfold pairs, singles. rewrite singles_ports, candidates_eq. induction hosts as [|h hosts IH]; [reflexivity|]. cbn [flat_map]. rewrite IH. reflexivity.
Qed.
Lemma generated : forall ovf d hosts, let c := map Single PORT_CANDIDATES in
  tcp_generate (S (length c + length hosts * S (length c))) ovf d c hosts (ports_iter c) = ROk (map (fun x => tcp_request d (fst x) (snd x)) (list_prod hosts camera_ports)).
Proof.
  intros ovf d hosts. cbv zeta. fold singles. rewrite <- pairs_singles. rewrite (tcp_generate_spec ovf d singles singles_ok); [|exact singles_ok|].
  - destruct hosts as [|h hs]; [reflexivity|]. unfold pairs. cbn [flat_map]. rewrite map_app, map_map. reflexivity.
  - change (left_ports (ports_iter singles)) with (flat_map ports_of singles). unfold singles. rewrite singles_ports, map_length. lia.
Qed.


(** ** One exchange of frames *)
Lemma num_bound : forall f off len, wf_bytes f -> num f off len < 256 ^ N.of_nat len.
Proof.
  intros f off len W. unfold num. pose proof (wf_firstn len _ (wf_skipn off f W)) as W'.
  eapply N.lt_le_trans; [apply (of_be_bound _ W')|]. apply N.pow_le_mono_r; [discriminate|]. rewrite firstn_length. lia.
Qed.
Definition host_ok (h : N * N) : Prop := fst h < 2 ^ 48 /\ snd h < 2 ^ 32.

Section Air.
  Variable ovf : bool.
  Variable air : bytes -> bytes -> list bytes -> capture.

  Lemma exchange_map : forall {A} (g : A -> packet) (P : A -> bytes -> Prop) l name flt,
    (forall x, In x l -> exists b, packet_bytes ovf (g x) = ROk b /\ P x b) ->
    exists sent, Forall2 P l sent /\ exchange ovf air name flt (ROk (map g l)) = sr (air name flt sent).
  Proof.
    intros A g P l name flt H. destruct (serialized_map g P ovf l H) as (bs & E & F). exists bs. split; [exact F|]. unfold exchange. cbn [bind]. rewrite E. reflexivity.
  Qed.
  Lemma arp_exchange : forall name flt d, netted d ->
    exchange ovf air name flt (bind (targets ovf d) (fun l => ROk (map (arp_request d) l))) = sr (air name flt (map (arp_query d) (between_addrs (network d) (broadcast d)))).
  Proof.
    intros name flt d ND. rewrite targets_between by exact ND. cbn [bind].
    destruct (exchange_map (arp_request d) (fun x b => b = arp_query d x) (between_addrs (network d) (broadcast d)) name flt) as (sent & F & ->).
    - intros x I. eexists. split; [apply arp_frame; [apply ND|now apply (between_bound d x (proj1 ND))]|reflexivity].
    - now rewrite (forall2_map _ _ _ F).
  Qed.
  Lemma icmp_exchange : forall name flt d, netted d -> exists sent, Forall2 (asks_echo d) (between_addrs (network d) (broadcast d)) sent /\
    exchange ovf air name flt (bind (targets ovf d) (fun l => ROk (map (icmp_request d) l))) = sr (air name flt sent).
  Proof.
    intros name flt d ND. rewrite targets_between by exact ND. cbn [bind]. apply exchange_map. intros x I.
    destruct (RawLayout.echo_frame ovf d x (proj1 ND) (between_bound d x (proj1 ND) I)) as (c1 & c2 & _ & _ & E & V). eexists. split; [exact E|]. exists c1, c2. auto.
  Qed.
  Lemma camera_bound : forall p, In p camera_ports -> p < 65536.
  Proof using. intros p H. unfold camera_ports in H. cbn [In] in H. lia. Qed.
  Lemma tcp_exchange : forall name flt d hosts, device_ok d -> Forall host_ok hosts -> exists sent, Forall2 (asks_port d) (list_prod hosts camera_ports) sent /\
    let c := map Single PORT_CANDIDATES in
    exchange ovf air name flt (tcp_generate (S (length c + length hosts * S (length c))) ovf d c hosts (ports_iter c)) = sr (air name flt sent).
  Proof.
    intros name flt d hosts DO HO. cbv zeta. rewrite generated. apply exchange_map. intros [h p] I. cbn [fst snd]. apply in_prod_iff in I. destruct I as [I J].
    rewrite Forall_forall in HO. destruct (HO h I) as [B1 B2].
    destruct (RawLayout.syn_frame ovf d h p DO B1 B2 (camera_bound p J)) as (c1 & c2 & _ & _ & E & V). eexists. split; [exact E|]. exists c1, c2. auto.
  Qed.

  (** ** Frames that parse *)
  Lemma whole_arp_parses : forall f, whole_arp f -> exists p a, packet_parse f = ROk p /\ pk_body p = EArp a /\
    of_be (ar_sha a) = num f 22 6 /\ of_be (ar_spa a) = num f 28 4.
  Proof using.
    clear. intros f (T & H6 & H4 & L). pose proof (arp_parses (skipn 14 f)) as X. rewrite !byte_skip, nlen_skipn in X. cbn [Nat.add] in X. rewrite H6, H4 in X.
    destruct X as (a & Ea); [lia|]. unfold packet_parse. destruct (N.ltb_spec (nlen f) 14); [lia|]. cbv zeta. cbn [eh_type]. rewrite num_zero. rewrite T. cbn [N.eqb Pos.eqb].
    rewrite Ea. cbn [bind]. eexists; exists a. split; [reflexivity|]. split; [reflexivity|]. destruct (parse_arp _ _ Ea) as (_ & _ & _ & S1 & S2).
    rewrite !byte_skip in *. cbn [Nat.add] in *. rewrite H6, H4 in *. rewrite !num_deep in *. split; [exact S1|exact S2].
  Qed.
  Lemma ip_head : forall f, whole_ip f -> exists h, iph_parse (skipn 14 f) = ROk h /\ ih_proto h = ip_of (ip_proto f) /\ (14 + (20 + length (ih_options h)) = inside f)%nat.
  Proof using.
    clear. intros f (_ & L5 & L). pose proof (nlen_skipn f 14) as NS. destruct (iph_parse (skipn 14 f)) as [h| |] eqn:E.
    - exists h. split; [reflexivity|]. destruct (iph_parsed _ _ E) as (_ & _ & _ & Lo & Pr). rewrite !byte_skip in *. cbn [Nat.add] in *. split; [exact Pr|]. unfold inside. unfold nlen in Lo. lia.
    - destruct (iph_short _ E) as [H|[_ H]]; rewrite ?byte_skip in *; cbn [Nat.add] in *; lia.
    - apply iph_panic in E. rewrite byte_skip in E. cbn [Nat.add] in E. lia.
  Qed.
  Lemma whole_echo_parses : forall f, whole_ip f -> ip_proto f = 1 -> exists p h b, packet_parse f = ROk p /\ pk_body p = EIp h b.
  Proof using.
    clear. intros f W P. destruct (ip_head f W) as (h & E & Pr & In_). destruct W as (T & L5 & L). unfold packet_parse. destruct (N.ltb_spec (nlen f) 14); [lia|]. cbv zeta. cbn [eh_type]. rewrite num_zero.
    rewrite T. cbn [N.eqb Pos.eqb]. unfold ip_parse. rewrite E. cbn [bind]. rewrite Pr, P. cbn [ip_of N.eqb Pos.eqb]. unfold icmp_parse.
    rewrite !nlen_skipn. destruct (N.ltb_spec (nlen f - N.of_nat 14 - N.of_nat (20 + length (ih_options h))) 8) as [B|B].
    - unfold inside in In_. lia.
    - cbn [bind fst snd]. do 3 eexists. split; reflexivity.
  Qed.
  Lemma whole_tcp_parses : forall f, wf_bytes f -> whole_tcp f -> exists p h t, packet_parse f = ROk p /\ pk_body p = EIp h (BTcp t).
  Proof using.
    clear. intros f WF (W & P & D5 & DL). destruct (ip_head f W) as (h & E & Pr & In_). destruct W as (T & L5 & L). unfold packet_parse. destruct (N.ltb_spec (nlen f) 14); [lia|]. cbv zeta. cbn [eh_type]. rewrite num_zero.
    rewrite T. cbn [N.eqb Pos.eqb]. unfold ip_parse. rewrite E. cbn [bind]. rewrite Pr, P. cbn [ip_of N.eqb Pos.eqb].
    assert (X : exists t, tcp_parse (skipn (20 + length (ih_options h)) (skipn 14 f)) = ROk t).
    { rewrite skipn_skipn', In_. set (g := skipn (inside f) f). assert (G : nlen g = nlen f - N.of_nat (inside f)) by apply nlen_skipn.
      assert (WG : wf_bytes g) by now apply wf_skipn. assert (B12 : byte_at g 12 = byte_at f (inside f + 12)) by apply byte_skip. rewrite <- B12 in *.
      unfold tcp_parse. destruct (N.ltb_spec (nlen g) 20) as [B|B]; [lia|]. rewrite field_2 by (unfold nlen in B; lia). rewrite of_be_2, high_nibble by now apply byte_bound.
      destruct (N.ltb_spec (byte_at g 12 / 16) 5); [lia|]. destruct (N.ltb_spec (nlen g) (20 + 4 * (byte_at g 12 / 16 - 5))); [lia|]. eexists. reflexivity. }
    destruct X as (t & ->). cbn [bind fst snd]. do 3 eexists. split; reflexivity.
  Qed.
  Lemma arp_decide : forall l, Forall arp_sizes l \/ exists p, In p l /\ ~ arp_sizes p.
  Proof using.
    clear. induction l as [|p l [IH|(q & I & H)]]; [left; constructor| |right; exists q; split; [now right|exact H]].
    assert (D : arp_sizes p \/ ~ arp_sizes p) by (unfold arp_sizes; destruct (pk_body p) as [a|h b|d]; [lia|auto|auto]).
    destruct D as [D|D]; [left; now constructor|right; exists p; split; [now left|exact D]].
  Qed.

  (** ** The scans of one device *)
  Hypothesis OB : obeys air.
  Definition spoiled (c : capture) : Prop := exists f, In f (frames (cp_rounds c)) /\ bad_frame f.
  Lemma sr_spoiled : forall name flt sent, sr (air name flt sent) = Crashes -> spoiled (air name flt sent).
  Proof using OB.
    intros name flt sent H. destruct (sr_crashes _ H) as (f & I & P). exists f. split; [exact I|]. destruct (OB _ _ _ _ I) as [W _]. apply packet_panic in P; [|exact W]. unfold bad_frame. tauto.
  Qed.
  Lemma sr_broken : forall name flt sent, sr (air name flt sent) = Fails -> ~ working air name.
  Proof using. intros name flt sent H W. destruct (W flt sent) as (A & B & C). now apply (sr_fails _ A B C). Qed.

  Lemma arp_spec : forall name d, netted d -> let A := air name (arp_filter d) (map (arp_query d) (between_addrs (network d) (broadcast d))) in
    match arp_scan ovf air name d with
    | Waits => within_limit A
    | Crashes => spoiled A
    | Fails => ~ working air name
    | Gives l => (forall mac ip, In (mac, ip) l -> arp_heard d A mac ip /\ host_ok (mac, ip)) /\
                 (forall f, in_time A f -> whole_arp f -> In (num f 22 6, num f 28 4) l)
    end.
  Proof using OB.
    intros name d ND. cbv zeta. set (flt := arp_filter d). unfold arp_scan. fold flt. rewrite arp_exchange by exact ND. set (sent := map _ _). destruct (sr (air name flt sent)) as [| | |l] eqn:E; cbn [and_then].
    - exact (sr_waits _ E).
    - exact (sr_spoiled _ _ _ E).
    - exact (sr_broken _ _ _ E).
    - destruct (sr_gives _ _ E) as (fs & -> & INC & TM & _). destruct (arp_decide (parsed fs)) as [D|(p & I & D)].
      + rewrite arp_hosts_ok by exact D. cbn [of_result]. split.
        * intros mac ip I. apply in_flat_map in I. destruct I as (p & I & J). rewrite Forall_forall in D. specialize (D p I). apply parsed_in in I. destruct I as (f & I & P).
          specialize (INC _ I). destruct (OB _ _ _ _ INC) as [W M]. destruct (parse_kind f p P) as (_ & _ & K). unfold arp_sizes in D. destruct (pk_body p) as [a|h b|x]; [|destruct J|destruct J].
          cbn [In] in J. destruct J as [J|[]]. injection J as <- <-. destruct K as [T K]. destruct (parse_arp _ _ K) as (_ & S1 & S2 & V1 & V2). destruct D as [D1 D2]. rewrite D1 in S1. rewrite D2 in S2.
          rewrite <- S1 in V1, V2. rewrite <- S2 in V2. rewrite !byte_skip in S1, S2. rewrite !num_deep in V1, V2.
          change (num f (14 + 8) (N.to_nat 6)) with (num f 22 6) in V1. change (num f (14 + (8 + N.to_nat 6)) (N.to_nat 4)) with (num f 28 4) in V2. rewrite V1, V2. split.
          -- exists f. split; [exact INC|]. unfold arp_from. destruct (M _ (arp_means d (proj1 ND))) as [_ X]. repeat split; [exact T|exact X|now symmetry|now symmetry].
          -- split; cbn [fst snd]; [apply (num_bound f 22 6 W)|apply (num_bound f 28 4 W)].
        * intros f IT WA. specialize (TM f IT). destruct (whole_arp_parses f WA) as (p & a & P & B & <- & <-). apply in_flat_map. exists p. split; [apply parsed_in; eauto|]. rewrite B. now left.
      + assert (F : ~ Forall arp_sizes (parsed fs)) by (intros F; rewrite Forall_forall in F; exact (D (F p I))).
        rewrite (proj2 (arp_hosts_panic _) F). cbn [of_result]. apply parsed_in in I. destruct I as (f & I & P). specialize (INC _ I). exists f. split; [exact INC|].
        right; right. destruct (parse_kind f p P) as (LL & _ & K). unfold arp_sizes in D. destruct (pk_body p) as [a|h b|x]; [|now contradict D|now contradict D]. destruct K as [T K].
        destruct (parse_arp _ _ K) as (L & S1 & S2 & _). rewrite S1, S2 in D. rewrite !byte_skip in *. rewrite nlen_skipn in L. cbn [Nat.add] in *. unfold odd_arp. split; [exact T|]. lia.
  Qed.
  Lemma icmp_spec : forall name d, netted d -> exists sent, Forall2 (asks_echo d) (between_addrs (network d) (broadcast d)) sent /\ let I := air name (icmp_filter d) sent in
    match icmp_scan ovf air name d with
    | Waits => within_limit I
    | Crashes => spoiled I
    | Fails => ~ working air name
    | Gives l => (forall mac ip, In (mac, ip) l -> echo_heard d I mac ip /\ host_ok (mac, ip)) /\
                 (forall f, in_time I f -> whole_ip f -> N.land (ip_src f) (dv_mask d) = network d -> In (eth_src f, ip_src f) l)
    end.
  Proof using OB.
    intros name d ND. set (flt := icmp_filter d). unfold icmp_scan. fold flt. destruct (icmp_exchange name flt d ND) as (sent & F2 & ->). exists sent. split; [exact F2|]. cbv zeta. destruct (sr (air name flt sent)) as [| | |l] eqn:E; cbn [and_then].
    - exact (sr_waits _ E).
    - exact (sr_spoiled _ _ _ E).
    - exact (sr_broken _ _ _ E).
    - destruct (sr_gives _ _ E) as (fs & -> & INC & TM & _). split.
      + intros mac ip I. unfold icmp_hosts in I. apply in_flat_map in I. destruct I as (p & I & J). apply parsed_in in I. destruct I as (f & I & P).
        specialize (INC _ I). destruct (OB _ _ _ _ INC) as [W M]. destruct (pk_body p) as [a|h b|x] eqn:B; [destruct J| |destruct J].
        destruct (frame_ip f p h b P B) as (T & S1 & S2 & _). destruct (N.eqb_spec (N.land (ih_src h) (dv_mask d)) (N.land (dv_ip d) (dv_mask d))) as [Q|Q]; [|destruct J].
        cbn [In] in J. destruct J as [J|[]]. injection J as <- <-. rewrite S1, S2 in *. destruct (M _ (icmp_means d (proj1 ND))) as ((_ & M1) & (_ & _ & M2) & _ & M3). split.
        * exists f. split; [exact INC|]. split; [|exact Q]. unfold echo_from. repeat split; assumption.
        * split; cbn [fst snd]; [apply (num_bound f 6 6 W)|apply (num_bound f 26 4 W)].
      + intros f IT WI Q. specialize (TM f IT). assert (IF : In f (frames (cp_rounds (air name flt sent)))).
        { destruct IT as (pre & t1 & t2 & t3 & post & -> & _). rewrite frames_app. apply in_or_app. right. now left. }
        destruct (OB _ _ _ _ IF) as [W M]. destruct (M _ (icmp_means d (proj1 ND))) as ((_ & M1) & _).
        destruct (whole_echo_parses f WI M1) as (p & h & b & P & B). destruct (frame_ip f p h b P B) as (T & S1 & S2 & _).
        unfold icmp_hosts. apply in_flat_map. exists p. split; [apply parsed_in; eauto|]. rewrite B, S1, S2. fold (network d). rewrite Q, N.eqb_refl. now left.
  Qed.
  Lemma tcp_spec : forall name d hosts, device_ok d -> Forall host_ok hosts -> exists sent, Forall2 (asks_port d) (list_prod hosts camera_ports) sent /\ let T := air name (tcp_filter d) sent in
    match tcp_scan ovf air name d hosts with
    | Waits => within_limit T
    | Crashes => spoiled T
    | Fails => ~ working air name
    | Gives l => (forall mac ip p, In (mac, ip, p) l -> port_heard d T mac ip p) /\
                 (forall f, in_time T f -> whole_tcp f -> In (eth_src f, ip_src f, port_from f) l)
    end.
  Proof using OB.
    intros name d hosts DO HO. set (flt := tcp_filter d). unfold tcp_scan. fold flt. cbv zeta. destruct (tcp_exchange name flt d hosts DO HO) as (sent & F2 & E0). cbv zeta in E0. rewrite E0. exists sent. split; [exact F2|]. destruct (sr (air name flt sent)) as [| | |l] eqn:E; cbn [and_then].
    - exact (sr_waits _ E).
    - exact (sr_spoiled _ _ _ E).
    - exact (sr_broken _ _ _ E).
    - destruct (sr_gives _ _ E) as (fs & -> & INC & TM & _). split.
      + intros mac ip p0 I. unfold tcp_services in I. apply in_flat_map in I. destruct I as (p & I & J). apply parsed_in in I. destruct I as (f & I & P).
        specialize (INC _ I). destruct (OB _ _ _ _ INC) as [W M]. destruct (pk_body p) as [a|h b|x] eqn:B; [destruct J| |destruct J]. destruct b as [x|t|x]; [destruct J| |destruct J].
        destruct (frame_ip f p h (BTcp t) P B) as (T & S1 & S2 & S3). destruct (S3 t eq_refl) as [S4 S5].
        cbn [In] in J. destruct J as [J|[]]. injection J as <- <- <-. rewrite S1, S2, S5 in *. destruct (M _ (tcp_means d DO)) as (_ & M1 & M2 & M3 & M4).
        exists f. split; [exact INC|]. unfold syn_ack_from. unfold is_ip, is_arp in *. destruct M1 as [[_ M1]|[M1|M1]]; [|lia|lia]. repeat split; auto.
      + intros f IT WI. specialize (TM f IT). assert (IF : In f (frames (cp_rounds (air name flt sent)))).
        { destruct IT as (pre & t1 & t2 & t3 & post & -> & _). rewrite frames_app. apply in_or_app. right. now left. }
        destruct (OB _ _ _ _ IF) as [W M]. destruct (whole_tcp_parses f W WI) as (p & h & t & P & B). destruct (frame_ip f p h (BTcp t) P B) as (T & S1 & S2 & S3). destruct (S3 t eq_refl) as [S4 S5].
        unfold tcp_services. apply in_flat_map. exists p. split; [apply parsed_in; eauto|]. rewrite B, S1, S2, S5. now left.
  Qed.
End Air.
