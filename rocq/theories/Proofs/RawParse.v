(** Raw packets: when parsing crashes. *)
From Coq Require Import NArith ZArith List Bool Lia ZifyBool ZifyNat ZifyN.
From Verif.Model Require Import Bytes Raw.
From Verif.Spec Require Import RawSpec.
From Verif.Proofs Require Import BytesFacts RawChecks.
Import ListNotations.
Local Open Scope N_scope.

Lemma byte_skip : forall data i k, byte_at (skipn i data) k = byte_at data (i + k).
Proof.
  intros data i. revert data. induction i as [|i IH]; intros data k; [reflexivity|]. destruct data as [|x data]; [cbn [skipn Nat.add]; unfold byte_at; now destruct k|]. cbn [skipn Nat.add]. apply IH.
Qed.
Lemma field_1 : forall data i, (i < length data)%nat -> field data i 1 = [byte_at data i].
Proof.
  intros data i H. unfold field, byte_at. revert i H. induction data as [|x data IH]; intros i H; [cbn in H; lia|]. destruct i as [|i]; [reflexivity|]. cbn [skipn nth]. apply IH. cbn [length] in H. lia.
Qed.
Lemma field_2 : forall data i, (i + 1 < length data)%nat -> field data i 2 = [byte_at data i; byte_at data (i + 1)].
Proof.
  intros data i H. change 2%nat with (1 + 1)%nat at 1. rewrite field_split, !field_1 by lia. reflexivity.
Qed.
Lemma byte_bound : forall data i, wf_bytes data -> byte_at data i < 256.
Proof. intros data i H. unfold byte_at. destruct (nth_in_or_default i data 0) as [I| ->]; [|reflexivity]. unfold wf_bytes in H. rewrite Forall_forall in H. now apply H. Qed.
Lemma of_be_2 : forall a b, of_be [a; b] = a * 256 + b.
Proof. intros. unfold of_be. cbn [fold_left]. lia. Qed.

Lemma high_nibble : forall a b, b < 256 -> (a * 256 + b) / 2 ^ 12 = a / 16.
Proof. intros a b H. change (2 ^ 12) with (256 * 16). rewrite <- N.div_div by discriminate. rewrite N.div_add_l by discriminate. rewrite (N.div_small b) by assumption. now rewrite N.add_0_r. Qed.
Lemma tcp_panic : forall d, wf_bytes d -> (tcp_parse d = RPanic <-> 20 <= nlen d /\ byte_at d 12 / 16 < 5).
Proof.
  intros d W. unfold tcp_parse. destruct (N.ltb_spec (nlen d) 20) as [L|L]; [split; [discriminate|lia]|].
  rewrite field_2 by (unfold nlen in L; lia). rewrite of_be_2, high_nibble by now apply byte_bound.
  destruct (N.ltb_spec (byte_at d 12 / 16) 5) as [B|B]; [tauto|]. destruct (nlen d <? _); (split; [discriminate|lia]).
Qed.
Lemma iph_panic : forall d, iph_parse d = RPanic <-> 20 <= nlen d /\ byte_at d 0 mod 16 < 5.
Proof.
  intros d. unfold iph_parse. destruct (N.ltb_spec (nlen d) 20) as [L|L]; [split; [discriminate|lia]|].
  rewrite field_1 by (unfold nlen in L; lia). change (of_be [byte_at d 0]) with (byte_at d 0).
  destruct (N.ltb_spec (byte_at d 0 mod 16) 5) as [B|B]; [tauto|]. destruct (nlen d <? _); (split; [discriminate|lia]).
Qed.
Lemma iph_parsed : forall d h, iph_parse d = ROk h ->
  20 <= nlen d /\ 5 <= byte_at d 0 mod 16 /\ 4 * (byte_at d 0 mod 16) <= nlen d /\ 20 + nlen (ih_options h) = 4 * (byte_at d 0 mod 16) /\ ih_proto h = ip_of (byte_at d 9).
Proof.
  intros d h. unfold iph_parse. destruct (N.ltb_spec (nlen d) 20) as [L|L]; [discriminate|].
  rewrite (field_1 d 0) by (unfold nlen in L; lia). rewrite (field_1 d 9) by (unfold nlen in L; lia). change (of_be [byte_at d 0]) with (byte_at d 0). change (of_be [byte_at d 9]) with (byte_at d 9).
  destruct (N.ltb_spec (byte_at d 0 mod 16) 5) as [B|B]; [discriminate|]. destruct (N.ltb_spec (nlen d) (20 + 4 * (byte_at d 0 mod 16 - 5))) as [M|M]; [discriminate|].
  intros E. apply ROk_inj in E. subst h. cbn [ih_options ih_proto]. repeat split; try lia.
  generalize dependent (byte_at d 0 mod 16). intros x B M. unfold nlen in *. rewrite field_length by lia. lia.
Qed.
Lemma iph_short : forall d, iph_parse d = RErr -> nlen d < 20 \/ (5 <= byte_at d 0 mod 16 /\ nlen d < 4 * (byte_at d 0 mod 16)).
Proof.
  intros d. unfold iph_parse. destruct (N.ltb_spec (nlen d) 20) as [L|L]; [auto|].
  rewrite (field_1 d 0) by (unfold nlen in L; lia). change (of_be [byte_at d 0]) with (byte_at d 0).
  destruct (N.ltb_spec (byte_at d 0 mod 16) 5) as [B|B]; [discriminate|]. destruct (N.ltb_spec (nlen d) (20 + 4 * (byte_at d 0 mod 16 - 5))) as [M|M]; [|discriminate]. intros _. right. lia.
Qed.
Lemma ip_of_6 : forall c, ip_of c = IpTcp <-> c = 6.
Proof.
  intros c. unfold ip_of. destruct (N.eqb_spec c 1); [subst; split; discriminate|]. destruct (N.eqb_spec c 6); [tauto|]. destruct (N.eqb_spec c 17); (split; [discriminate|tauto]).
Qed.
Lemma nlen_skipn : forall (d : bytes) k, nlen (skipn k d) = nlen d - N.of_nat k.
Proof. intros d k. unfold nlen. rewrite skipn_length. lia. Qed.
Lemma ip_panic : forall d, wf_bytes d -> (ip_parse d = RPanic <->
  (20 <= nlen d /\ byte_at d 0 mod 16 < 5) \/
  (20 <= nlen d /\ byte_at d 9 = 6 /\ 5 <= byte_at d 0 mod 16 /\ 20 + 4 * (byte_at d 0 mod 16) <= nlen d /\ byte_at d (12 + N.to_nat (4 * (byte_at d 0 mod 16))) / 16 < 5)).
Proof.
  intros d W. unfold ip_parse. destruct (iph_parse d) as [h| |] eqn:E; cbn [bind].
  - destruct (iph_parsed d h E) as (A & B & C & D & P). set (n := byte_at d 0 mod 16) in *.
    assert (K : (20 + length (ih_options h) = N.to_nat (4 * n))%nat) by (unfold nlen in D; lia). rewrite K.
    assert (T : tcp_parse (skipn (N.to_nat (4 * n)) d) = RPanic <-> 20 + 4 * n <= nlen d /\ byte_at d (12 + N.to_nat (4 * n)) / 16 < 5).
    { rewrite tcp_panic by now apply wf_skipn. rewrite nlen_skipn, byte_skip, (Nat.add_comm _ 12). split; intros [? ?]; (split; [lia|assumption]). }
    pose proof (ip_of_6 (byte_at d 9)) as S6. rewrite P. destruct (ip_of (byte_at d 9)) eqn:Q.
    + unfold icmp_parse. destruct (_ <? 8); cbn [bind]; (split; [discriminate|]); intros [[_ H]|(_ & H & _)]; [lia|apply S6 in H; discriminate|lia|apply S6 in H; discriminate].
    + assert (byte_at d 9 = 6) by now apply S6. destruct (tcp_parse (skipn (N.to_nat (4 * n)) d)); cbn [bind].
      * split; [discriminate|]. intros [[_ H']|(_ & _ & _ & H')]; [lia|]. apply T in H'. discriminate.
      * split; [discriminate|]. intros [[_ H']|(_ & _ & _ & H')]; [lia|]. apply T in H'. discriminate.
      * split; [|reflexivity]. intros _. right. destruct T as [T _]. specialize (T eq_refl). tauto.
    + split; [discriminate|]. intros [[_ H]|(_ & H & _)]; [lia|apply S6 in H; discriminate].
    + split; [discriminate|]. intros [[_ H]|(_ & H & _)]; [lia|apply S6 in H; discriminate].
  - split; [discriminate|]. destruct (iph_short d E) as [H|H]; lia.
  - apply iph_panic in E. tauto.
Qed.
Lemma arp_no_panic : forall d, arp_parse d <> RPanic.
Proof. intros d. unfold arp_parse. destruct (_ <? 8); [discriminate|]. destruct (_ <? _); discriminate. Qed.
Lemma packet_panic : forall d, wf_bytes d -> (packet_parse d = RPanic <-> short_ip d \/ short_tcp d).
Proof.
  intros d W. unfold packet_parse, short_ip, short_tcp. cbv zeta. destruct (N.ltb_spec (nlen d) 14) as [L|L]; [split; [discriminate|lia]|].
  cbn [eh_type]. rewrite field_2 by (unfold nlen in L; lia). rewrite of_be_2. change (12 + 1)%nat with 13%nat.
  pose proof (byte_bound d 12 W). pose proof (byte_bound d 13 W).
  destruct (N.eqb_spec (byte_at d 12 * 256 + byte_at d 13) 2054) as [T|T].
  - pose proof (arp_no_panic (skipn 14 d)). destruct (arp_parse (skipn 14 d)); cbn [bind]; [| |congruence]; (split; [discriminate|lia]).
  - destruct (N.eqb_spec (byte_at d 12 * 256 + byte_at d 13) 2048) as [T2|T2]; [|split; [discriminate|lia]].
    assert (B : byte_at d 12 = 8 /\ byte_at d 13 = 0) by lia. destruct B as [B1 B2].
    pose proof (ip_panic (skipn 14 d) (wf_skipn 14 d W)) as P. rewrite !byte_skip, nlen_skipn in P. change (14 + 0)%nat with 14%nat in P. change (14 + 9)%nat with 23%nat in P.
    rewrite Nat.add_assoc in P. change (14 + 12)%nat with 26%nat in P. set (n := byte_at d 14 mod 16) in *.
    transitivity (ip_parse (skipn 14 d) = RPanic); [destruct (ip_parse (skipn 14 d)); cbn [bind]; split; (discriminate || reflexivity)|].
    rewrite P. split; (intros [H'|H']; [left|right]; repeat split; try lia; tauto).
Qed.

(** ** Results of an ARP scan *)
Definition arp_sizes (p : packet) : Prop := match pk_body p with EArp a => nlen (ar_sha a) = 6 /\ nlen (ar_spa a) = 4 | _ => True end.
Lemma arp_hosts_ok : forall l, Forall arp_sizes l ->
  arp_hosts l = ROk (flat_map (fun p => match pk_body p with EArp a => [(of_be (ar_sha a), of_be (ar_spa a))] | _ => [] end) l).
Proof.
  induction 1 as [|p l Hp H IH]; [reflexivity|]. cbn [arp_hosts flat_map]. unfold arp_sizes in Hp. destruct (pk_body p) as [a|h b|d]; [|exact IH|exact IH].
  destruct Hp as [A B]. unfold from_slice. rewrite A, B. cbn [N.eqb Pos.eqb bind]. rewrite IH. reflexivity.
Qed.
Lemma arp_hosts_panic : forall l, arp_hosts l = RPanic <-> ~ Forall arp_sizes l.
Proof.
  intros l. split.
  - intros H F. rewrite (arp_hosts_ok l F) in H. discriminate.
  - induction l as [|p l IH]; intros H; [exfalso; apply H; constructor|]. cbn [arp_hosts].
    assert (D : arp_sizes p -> arp_hosts l = RPanic) by (intros S; apply IH; intros F; apply H; now constructor).
    unfold arp_sizes in D. destruct (pk_body p) as [a|h b|d]; [|now apply D|now apply D].
    unfold from_slice. destruct (N.eqb_spec (nlen (ar_sha a)) 6) as [A|A]; cbn [bind]; [|reflexivity]. destruct (N.eqb_spec (nlen (ar_spa a)) 4) as [B|B]; cbn [bind]; [|reflexivity].
    rewrite D by tauto. reflexivity.
Qed.
