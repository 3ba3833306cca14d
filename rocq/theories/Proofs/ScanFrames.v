(** Whole scans: what the parser makes of a frame, and what a listener returns. *)
From Coq Require Import String NArith ZArith List Bool Lia ZifyBool ZifyNat ZifyN.
From Verif.Model Require Import Bytes Text Mac Raw Scan.
From Verif.Spec Require Import RawSpec ScanSpec.
From Verif.Proofs Require Import BytesFacts RawSums RawChecks RawRound RawParse RawGen.
Import ListNotations.
Local Open Scope N_scope.
Local Open Scope list_scope.

Lemma num_skip : forall f k off len, of_be (field (skipn k f) off len) = num f (k + off) len.
Proof. intros. unfold field, num. now rewrite skipn_skipn'. Qed.
Lemma num_zero : forall f off len, of_be (field f off len) = num f off len.
Proof. reflexivity. Qed.
Lemma num_byte : forall f i, (i < length f)%nat -> num f i 1 = byte_at f i.
Proof. intros f i H. unfold num. change (firstn 1 (skipn i f)) with (field f i 1). now rewrite field_1. Qed.

Lemma parse_kind : forall f p, packet_parse f = ROk p -> 14 <= nlen f /\
  pk_header p = {| eh_src := eth_src f; eh_dst := eth_dst f; eh_type := num f 12 2 |} /\
  match pk_body p with
  | EArp a => is_arp f /\ arp_parse (skipn 14 f) = ROk a
  | EIp h b => is_ip f /\ ip_parse (skipn 14 f) = ROk (h, b)
  | ERaw d => ~ is_arp f /\ ~ is_ip f
  end.
Proof.
  intros f p. unfold packet_parse. destruct (N.ltb_spec (nlen f) 14) as [|L]; [discriminate|]. cbv zeta. cbn [eh_type]. rewrite num_zero.
  destruct (N.eqb_spec (num f 12 2) 2054) as [E|E]; [|destruct (N.eqb_spec (num f 12 2) 2048) as [E2|E2]].
  - destruct (arp_parse (skipn 14 f)) as [a| |] eqn:A; cbn [bind]; try discriminate. intros [= <-]. cbn [pk_header pk_body]. repeat split; [exact L|exact E].
  - destruct (ip_parse (skipn 14 f)) as [[h b]| |] eqn:A; cbn [bind]; try discriminate. intros [= <-]. cbn [pk_header pk_body fst snd]. repeat split; [exact L|exact E2].
  - intros [= <-]. cbn [pk_header pk_body]. repeat split; [exact L| |]; assumption.
Qed.

Lemma parse_arp : forall d a, arp_parse d = ROk a ->
  8 + 2 * byte_at d 4 + 2 * byte_at d 5 <= nlen d /\ nlen (ar_sha a) = byte_at d 4 /\ nlen (ar_spa a) = byte_at d 5 /\
  of_be (ar_sha a) = num d 8 (N.to_nat (byte_at d 4)) /\ of_be (ar_spa a) = num d (8 + N.to_nat (byte_at d 4)) (N.to_nat (byte_at d 5)).
Proof.
  intros d a. unfold arp_parse. destruct (N.ltb_spec (nlen d) 8) as [|L]; [discriminate|]. cbv zeta. rewrite !num_zero.
  rewrite !num_byte by (unfold nlen in L; lia). destruct (N.ltb_spec (nlen d) (8 + 2 * byte_at d 4 + 2 * byte_at d 5)) as [|L2]; [discriminate|].
  intros [= <-]. cbn [ar_sha ar_spa]. split; [exact L2|]. rewrite !num_zero. unfold field, nlen in *. rewrite !firstn_length, !skipn_length. repeat split; lia.
Qed.
Lemma arp_parses : forall d, 8 + 2 * byte_at d 4 + 2 * byte_at d 5 <= nlen d -> exists a, arp_parse d = ROk a.
Proof.
  intros d H. unfold arp_parse. destruct (N.ltb_spec (nlen d) 8) as [|L]; [lia|]. cbv zeta. rewrite !num_zero. rewrite !num_byte by (unfold nlen in L; lia).
  destruct (N.ltb_spec (nlen d) (8 + 2 * byte_at d 4 + 2 * byte_at d 5)) as [|L2]; [lia|]. eexists. reflexivity.
Qed.

Lemma iph_src_num : forall d h, iph_parse d = ROk h -> ih_src h = num d 12 4.
Proof.
  intros d h. unfold iph_parse. destruct (_ <? 20); [discriminate|]. cbv zeta. destruct (_ <? 5); [discriminate|]. destruct (_ <? _); [discriminate|]. intros [= <-]. reflexivity.
Qed.
Lemma tcp_sport_num : forall d t, tcp_parse d = ROk t -> tp_sport t = num d 0 2.
Proof.
  intros d h. unfold tcp_parse. destruct (_ <? 20); [discriminate|]. cbv zeta. destruct (_ <? 5); [discriminate|]. destruct (_ <? _); [discriminate|]. intros [= <-]. reflexivity.
Qed.
Lemma num_deep : forall f k off len, num (skipn k f) off len = num f (k + off) len.
Proof. intros. apply num_skip. Qed.
Lemma frame_ip : forall f p h b, packet_parse f = ROk p -> pk_body p = EIp h b ->
  is_ip f /\ eh_src (pk_header p) = eth_src f /\ ih_src h = ip_src f /\ forall t, b = BTcp t -> ip_proto f = 6 /\ tp_sport t = port_from f.
Proof.
  intros f p h b E B. destruct (parse_kind f p E) as (L & Hh & K). rewrite B in K. destruct K as [I K]. split; [exact I|]. rewrite Hh. cbn [eh_src]. split; [reflexivity|].
  unfold ip_parse in K. destruct (iph_parse (skipn 14 f)) as [h'| |] eqn:P; cbn [bind] in K; try discriminate K.
  pose proof (iph_src_num _ _ P) as S. destruct (iph_parsed _ _ P) as (_ & L5 & _ & Lo & Pr). rewrite !byte_skip in *. rewrite num_deep in S.
  assert (h' = h /\ forall t, b = BTcp t -> ih_proto h' = IpTcp /\ tcp_parse (skipn (20 + length (ih_options h')) (skipn 14 f)) = ROk t) as [<- K2].
  { destruct (ih_proto h') eqn:T; [destruct (icmp_parse _); cbn [bind] in K; try discriminate K|destruct (tcp_parse _) eqn:Tp; cbn [bind] in K; try discriminate K| |];
      injection K as <- <-; (split; [reflexivity|]); intros t H; try discriminate H. injection H as <-. auto. }
  split; [exact S|]. intros t Ht. destruct (K2 t Ht) as [T Tp]. rewrite Pr in T. apply ip_of_6 in T. split; [exact T|].
  rewrite (tcp_sport_num _ _ Tp), !num_deep. unfold port_from, inside. f_equal. change (14 + 0)%nat with 14%nat in Lo. unfold nlen in Lo. lia.
Qed.

(** ** What a listener returns *)
Lemma prefix_cases : forall {A} (p q a b : list A) x y, p ++ x :: a = q ++ y :: b ->
  (exists r, q = p ++ x :: r) \/ (exists r, p ++ [x] = q ++ y :: r).
Proof.
  intros A. induction p as [|z p IH]; intros q a b x y E.
  - destruct q as [|w q]; cbn [app] in *.
    + injection E as <- _. right. exists []. reflexivity.
    + injection E as <- _. left. exists q. reflexivity.
  - destruct q as [|w q]; cbn [app] in *.
    + injection E as <- _. right. exists (p ++ [x]). reflexivity.
    + injection E as <- E. destruct (IH q a b x y E) as [(r & ->)|(r & Hr)]; [left; now exists r|right; exists r; now rewrite Hr].
Qed.
Lemma frames_app : forall a b, frames (a ++ b) = frames a ++ frames b.
Proof. intros. apply flat_map_app. Qed.
Lemma sr_gives : forall c l, sr c = Gives l -> exists fs, l = parsed fs /\ incl fs (frames (cp_rounds c)) /\
  (forall f, in_time c f -> In f fs) /\ cp_open c = true /\ cp_sent c = true.
Proof.
  intros c l. unfold sr. destruct (cp_sent c); [|discriminate]. destruct (cp_open c); [|discriminate].
  destruct (listen SOFT (Some HARD) (cp_start c) (cp_start c) (cp_rounds c) []) as [|l'| |] eqn:E; try discriminate. intros [= <-].
  apply listen_stopped in E. destruct E as (pre & r & post & ER & _ & _ & X & ->). exists (frames (pre ++ [r])). cbn [app]. split; [reflexivity|]. split; [|split; [|auto]].
  - intros f I. rewrite ER. change (r :: post) with ([r] ++ post). rewrite app_assoc, frames_app. apply in_or_app. now left.
  - intros f (pre' & t1 & t2 & t3 & post' & E' & ST). rewrite ER in E'. destruct (prefix_cases _ _ _ _ _ _ E') as [(q & ->)|(q & Hq)].
    + exfalso. apply (ST (pre ++ [r]) q); [now rewrite <- app_assoc|destruct pre; discriminate|exact X].
    + rewrite Hq, frames_app. apply in_or_app. right. now left.
Qed.
Lemma parsed_in : forall fs p, In p (parsed fs) <-> exists f, In f fs /\ packet_parse f = ROk p.
Proof.
  intros fs p. unfold parsed. rewrite in_flat_map. split.
  - intros (f & I & J). exists f. split; [exact I|]. destruct (packet_parse f) as [q| |]; [destruct J as [->|[]]; reflexivity|destruct J|destruct J].
  - intros (f & I & J). exists f. split; [exact I|]. rewrite J. now left.
Qed.
Lemma listen_crashed : forall soft total start rounds last acc, listen soft total start last rounds acc = Crashed ->
  exists f, In f (frames rounds) /\ packet_parse f = RPanic.
Proof.
  intros soft total start. induction rounds as [|x rounds IH]; intros last acc; cbn [listen]; [discriminate|]. destruct x as [f t1 t2 t3|]; [|discriminate].
  assert (G : forall la ac, (if match total with Some t => t <? t2 - start | None => false end then Stopped ac
              else if soft <? t3 - la then Stopped ac else listen soft total start la rounds ac) = Crashed ->
            exists g, In g (frames rounds) /\ packet_parse g = RPanic).
  { intros la ac. destruct (match total with Some t => t <? t2 - start | None => false end); [discriminate|]. destruct (soft <? t3 - la); [discriminate|]. apply IH. }
  destruct f as [f|].
  - destruct (packet_parse f) as [p| |] eqn:E.
    + intros H. destruct (G _ _ H) as (g & I & P). exists g. split; [now right|exact P].
    + intros H. destruct (G _ _ H) as (g & I & P). exists g. split; [now right|exact P].
    + intros _. exists f. split; [now left|exact E].
  - intros H. destruct (G _ _ H) as (g & I & P). exists g. split; [exact I|exact P].
Qed.
Lemma listen_failed : forall soft total start rounds last acc, listen soft total start last rounds acc = Failed -> In RdError rounds.
Proof.
  intros soft total start. induction rounds as [|x rounds IH]; intros last acc; cbn [listen]; [discriminate|]. destruct x as [f t1 t2 t3|]; [|now left]. intros H. right.
  assert (G : forall la ac, (if match total with Some t => t <? t2 - start | None => false end then Stopped ac
              else if soft <? t3 - la then Stopped ac else listen soft total start la rounds ac) = Failed -> In RdError rounds).
  { intros la ac. destruct (match total with Some t => t <? t2 - start | None => false end); [discriminate|]. destruct (soft <? t3 - la); [discriminate|]. apply IH. }
  destruct f as [f|]; [destruct (packet_parse f) as [p| |]; try discriminate|]; now apply G in H.
Qed.
Lemma sr_crashes : forall c, sr c = Crashes -> exists f, In f (frames (cp_rounds c)) /\ packet_parse f = RPanic.
Proof.
  intros c. unfold sr. destruct (cp_sent c); [|discriminate]. destruct (cp_open c); [|discriminate].
  destruct (listen SOFT (Some HARD) (cp_start c) (cp_start c) (cp_rounds c) []) eqn:E; try discriminate. intros _. now apply listen_crashed in E.
Qed.
Lemma sr_fails : forall c, cp_open c = true -> cp_sent c = true -> ~ In RdError (cp_rounds c) -> sr c <> Fails.
Proof.
  intros c O S NE. unfold sr. rewrite O, S. destruct (listen SOFT (Some HARD) (cp_start c) (cp_start c) (cp_rounds c) []) eqn:E; try discriminate. intros _. now apply listen_failed in E.
Qed.
Lemma sr_waits : forall c, sr c = Waits -> forall f t1 t2 t3, In (Rd f t1 t2 t3) (cp_rounds c) -> t2 <= cp_start c + 20000000000.
Proof.
  intros c. unfold sr. destruct (cp_sent c); [|discriminate]. destruct (cp_open c); [|discriminate].
  destruct (listen SOFT (Some HARD) (cp_start c) (cp_start c) (cp_rounds c) []) eqn:E; try discriminate. intros _ f t1 t2 t3 I.
  destruct (N.leb_spec t2 (cp_start c + 20000000000)) as [|L]; [assumption|]. exfalso. now apply (hard_limit SOFT HARD (cp_start c) (cp_rounds c) (cp_start c) [] f t1 t2 t3 I L).
Qed.
