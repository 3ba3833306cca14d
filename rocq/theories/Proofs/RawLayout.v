(** Raw packets: the bytes of headers, field by field. *)
From Coq Require Import NArith List Bool Lia ZifyBool ZifyNat ZifyN.
From Verif.Model Require Import Bytes Raw.
From Verif.Spec Require Import RawSpec.
From Verif.Proofs Require Import BytesFacts RawSums RawChecks RawRound RawScan.
Import ListNotations.
Local Open Scope N_scope.

Lemma be16_eq n : n < 65536 -> to_be 2 n = be16 n.
Proof.
  intros H. unfold be16. cbn [to_be app]. rewrite (N.mod_small (n / 256)); [reflexivity|].
  apply N.div_lt_upper_bound; [discriminate|assumption].
Qed.
Lemma be32_eq n : n < 2 ^ 32 -> to_be 4 n = be32 n.
Proof.
  intros H. unfold be32. cbn [to_be app]. rewrite !N.div_div by discriminate.
  change (256 * 256) with (2 ^ 16). change (2 ^ 16 * 256) with (2 ^ 24). change 256 with (2 ^ 8) at 3.
  rewrite (N.mod_small (n / 2 ^ 24)); [reflexivity|].
  apply N.div_lt_upper_bound; [discriminate|assumption].
Qed.
Lemma to_be_app k n : to_be (4 + k) n = to_be k (n / 2 ^ 32) ++ to_be 4 (n mod 2 ^ 32).
Proof.
  change (n mod 2 ^ 32) with (n mod 256 ^ N.of_nat 4). rewrite to_be_mod.
  cbn [to_be Nat.add app]. rewrite !N.div_div by discriminate.
  change (256 * (256 * (256 * 256))) with (2 ^ 32). rewrite <- !app_assoc. reflexivity.
Qed.
Lemma be48_eq n : n < 2 ^ 48 -> to_be 6 n = be48 n.
Proof.
  intros H. rewrite (to_be_app 2). unfold be48. f_equal.
  - apply be16_eq. apply N.div_lt_upper_bound; [discriminate|]. exact H.
  - apply be32_eq. apply N.mod_lt. discriminate.
Qed.
Lemma checksum_bound s : sum_to_checksum s < 65536.
Proof. unfold sum_to_checksum, u16. apply N.mod_lt. discriminate. Qed.
Lemma pseudo_eq h n : ih_src h < 2 ^ 32 -> ih_dst h < 2 ^ 32 -> n < 65536 ->
  pseudo h n = pseudo_header (ih_src h) (ih_dst h) (ip_code (ih_proto h)) n.
Proof. intros S D L. unfold pseudo, pseudo_header. now rewrite !be32_eq, be16_eq by assumption. Qed.

Lemma quarter n : n mod 4 = 0 -> (20 + n) / 4 = 5 + n / 4.
Proof. intros H. change 20 with (5 * 4). now rewrite N.div_add_l by discriminate. Qed.

Lemma ip_on_wire ovf h dlen b : iph_ok h -> 20 + nlen (ih_options h) + dlen < 65536 -> iph_bytes ovf h dlen = ROk b ->
  exists c, c < 65536 /\ b = ip_layout h (20 + nlen (ih_options h) + dlen) c.
Proof.
  intros Ok L E. pose proof Ok as [O1 O2 O3 O4 O5 O6 O7 O8 O9 O10 O11].
  destruct (iph_bytes_eq ovf h dlen O11) as (s & E' & _). rewrite E in E'. apply ROk_inj in E'. subst b.
  exists (sum_to_checksum s). split; [apply checksum_bound|]. pose proof (checksum_bound s) as Hc.
  destruct O11 as (W & M & B). unfold ip_head, ip_tail, ip_len, ip_layout, opt_count.
  rewrite (be16_eq _ Hc), !be32_eq by assumption. rewrite (be16_eq (ih_ident h)) by assumption.
  assert (Q : nlen (ih_options h) / 4 <= 10) by (apply (N.div_le_upper_bound _ 4 10); lia).
  rewrite (quarter _ M). unfold u8, u16. change (2 ^ 8) with 256. change (2 ^ 16) with 65536. change (2 ^ 13) with 8192.
  rewrite (N.mod_small (ih_version h * 16)) by lia. rewrite (N.mod_small (5 + _) 16) by lia.
  rewrite (N.mod_small (ih_dscp h * 4)) by lia. rewrite (N.mod_small (ih_ecn h)) by lia.
  rewrite (N.mod_small (ih_flags h * 8192)) by lia. rewrite (N.mod_small (ih_foffset h)) by lia.
  rewrite (N.mod_small (20 + _ + _)) by lia. rewrite (be16_eq (20 + _ + _)) by lia. rewrite (be16_eq (_ * _ + _)) by lia.
  rewrite (N.mul_comm (ih_version h)), (N.mul_comm (ih_dscp h)), (N.mul_comm (ih_flags h)).
  rewrite (proj2 (proj2 (protocol_code _ O8))). rewrite <- !app_assoc. reflexivity.
Qed.
Lemma tcp_on_wire ovf h p b : tcp_ok p -> 20 + nlen (tp_options p) + nlen (tp_data p) < 65536 -> tcp_bytes ovf h p = ROk b ->
  exists c, c < 65536 /\ b = tcp_layout p 0 c.
Proof.
  intros Ok L E. pose proof Ok as [O1 O2 O3 O4 O5 O6 O7 O8 O9].
  destruct (tcp_bytes_eq ovf h p O8 L) as (s & E' & _). rewrite E in E'. apply ROk_inj in E'. subst b.
  exists (sum_to_checksum s). split; [apply checksum_bound|]. pose proof (checksum_bound s) as Hc.
  destruct O8 as (W & M & B). unfold tcp_head, tcp_df, tcp_layout, opt_count.
  rewrite (be16_eq _ Hc), !be32_eq by assumption. rewrite (be16_eq (tp_sport p)), (be16_eq (tp_dport p)), (be16_eq (tp_wsize p)), (be16_eq 0) by (assumption || reflexivity).
  assert (Q : nlen (tp_options p) / 4 <= 10) by (apply (N.div_le_upper_bound _ 4 10); lia).
  rewrite (quarter _ M). change (2 ^ 12) with 4096. rewrite (N.mod_small (tp_flags p)) by lia.
  rewrite (be16_eq (_ * _ + _)) by lia. rewrite (N.mul_comm _ 4096). rewrite <- !app_assoc. reflexivity.
Qed.
Lemma icmp_on_wire p : icmp_ok p -> exists c, c < 65536 /\ icmp_bytes p = icmp_layout p c.
Proof.
  intros [O1 O2 O3 O4]. assert (Hc : icmp_checksum p < 65536) by apply checksum_bound.
  exists (icmp_checksum p). split; [assumption|]. unfold icmp_bytes, icmp_layout.
  now rewrite (proj2 (proj2 (icmp_type_code _ O1))), be16_eq, be32_eq by assumption.
Qed.
Lemma arp_on_wire p : arp_ok p -> arp_bytes p = arp_layout p.
Proof.
  intros [O1 O2 O3 O4 O5 O6 O7 O8 O9]. destruct (operation_code _ O5) as (P1 & _ & P2). unfold arp_bytes, arp_layout.
  rewrite !be16_eq by assumption. now rewrite O6, O7, P2.
Qed.
Lemma eth_on_wire h : eth_ok h -> eth_bytes h = eth_layout h.
Proof. intros [A B C]. unfold eth_bytes, eth_layout. now rewrite !be48_eq, be16_eq by assumption. Qed.

Lemma tcp_verifies_pseudo ovf h p b : tcp_ok p -> iph_ok h -> 20 + nlen (tp_options p) + nlen (tp_data p) < 65536 ->
  tcp_bytes ovf h p = ROk b ->
  nlen b = 20 + nlen (tp_options p) + nlen (tp_data p) /\
  verifies (pseudo_header (ih_src h) (ih_dst h) (protocol_number (ih_proto h)) (nlen b) ++ b).
Proof.
  intros Ok [O1 O2 O3 O4 O5 O6 O7 O8 O9 O10 O11] L E.
  destruct (protocol_code _ O8) as (P1 & _ & P2). destruct (tcp_verifies ovf h p b Ok P1 L E) as [A B]. split; [assumption|]. rewrite <- P2.
  rewrite <- pseudo_eq; [assumption|assumption|assumption|]. now rewrite A.
Qed.

(** ** The frames of the scans *)
Lemma arp_frame ovf d dst : device_ok d -> dst < 2 ^ 32 -> packet_bytes ovf (arp_request d dst) = ROk (arp_query d dst).
Proof.
  intros (M & A & _) D. unfold packet_bytes, arp_request, packet_arp. cbn [pk_body pk_header bind]. f_equal.
  unfold eth_bytes, arp_bytes, arp_query. cbn [eh_dst eh_src eh_type arp_new ar_htype ar_ptype ar_hlen ar_plen ar_oper ar_sha ar_spa ar_tha ar_tpa].
  rewrite (be48_eq (dv_mac d)), !be32_eq by assumption. rewrite <- !app_assoc. reflexivity.
Qed.
Lemma plain_layout src dst t len c : ip_layout (iph_new src dst t 64) len c = plain_ip (protocol_number t) len c src dst.
Proof. unfold ip_layout, plain_ip. cbn [iph_new ih_version ih_dscp ih_ecn ih_ident ih_flags ih_foffset ih_ttl ih_proto ih_src ih_dst ih_options]. now rewrite app_nil_r. Qed.
Lemma echo_frame ovf d dst : device_ok d -> dst < 2 ^ 32 -> exists c1 c2, c1 < 65536 /\ c2 < 65536 /\
  packet_bytes ovf (icmp_request d dst) = ROk (everyone ++ be48 (dv_mac d) ++ [8; 0] ++ plain_ip 1 28 c1 (dv_ip d) dst ++ echo_message c2 dst) /\
  verifies (plain_ip 1 28 c1 (dv_ip d) dst) /\ verifies (echo_message c2 dst).
Proof.
  intros DO D. pose proof (icmp_request_ok d dst DO D) as OK. destruct (packet_total ovf _ OK) as (bs & E). destruct DO as (M & A & _).
  destruct OK as (OE & OH & OB & _). cbn [icmp_request packet_ip pk_header pk_body] in OE, OH, OB.
  destruct (frame_parts _ _ _ _ _ E) as (hb & bb & H1 & H2 & ->).
  pose proof (iph_verifies _ _ _ _ OH H1) as V1. apply ip_on_wire in H1; [|exact OH|reflexivity]. destruct H1 as (c1 & C1 & ->).
  cbn [body_bytes] in H2. apply ROk_inj in H2. subst bb. destruct OB as (_ & OI & _). destruct (icmp_on_wire _ OI) as (c2 & C2 & W).
  pose proof (echo_verifies dst) as V2.
  assert (EM : icmp_layout (echo_request (u16 (dst / 2 ^ 16)) (u16 (N.land dst 255)) []) c2 = echo_message c2 dst).
  { unfold icmp_layout, echo_message. cbn [echo_request ic_type ic_code ic_rest ic_body icmp_number].
    rewrite land_255. unfold u16. change (2 ^ 16) with 65536. change (2 ^ 32) with 4294967296 in D.
    pose proof (N.mod_lt dst 65536 ltac:(discriminate)). pose proof (N.div_lt_upper_bound dst 65536 65536 ltac:(discriminate) D).
    rewrite (N.mod_small (dst / 65536)) by assumption. pose proof (N.mod_lt (dst mod 65536) 256 ltac:(discriminate)).
    rewrite (N.mod_small ((dst mod 65536) mod 256)) by lia.
    assert (Q : (dst mod 65536) mod 256 = dst mod 256).
    { change 65536 with (256 * 256). rewrite N.mod_mul_r by discriminate. rewrite (N.mul_comm 256), N.mod_add by discriminate. apply N.mod_mod. discriminate. }
    rewrite Q in *. rewrite app_nil_r. do 2 f_equal. set (a := dst / 65536) in *. set (b := dst mod 256) in *.
    unfold be32, be16. change (2 ^ 24) with (65536 * 256). change (2 ^ 16) with 65536. change (2 ^ 8) with 256.
    rewrite <- N.div_div by discriminate. assert (X1 : (a * 65536 + b) / 65536 = a) by (rewrite N.div_add_l by discriminate; rewrite (N.div_small b) by lia; lia).
    rewrite X1. assert (X2 : (a * 65536 + b) / 256 mod 256 = 0).
    { replace (a * 65536 + b) with (a * 256 * 256 + b) by lia. rewrite N.div_add_l by discriminate. rewrite (N.div_small b) by lia. rewrite N.add_0_r. apply N.mod_mul. discriminate. }
    assert (X3 : (a * 65536 + b) mod 256 = b).
    { replace (a * 65536 + b) with (b + a * 256 * 256) by lia. rewrite N.mod_add by discriminate. apply N.mod_small. lia. }
    rewrite X2, X3. reflexivity. }
  rewrite W in *. rewrite EM in *. rewrite plain_layout in *. exists c1, c2. split; [exact C1|]. split; [exact C2|]. split; [|split; assumption].
  rewrite E. f_equal. rewrite eth_on_wire by exact OE. unfold eth_layout. cbn [eh_dst eh_src eh_type]. rewrite <- !app_assoc. reflexivity.
Qed.
Lemma syn_frame ovf d h p : device_ok d -> fst h < 2 ^ 48 -> snd h < 2 ^ 32 -> p < 65536 -> exists c1 c2, c1 < 65536 /\ c2 < 65536 /\
  packet_bytes ovf (tcp_request d h p) = ROk (be48 (fst h) ++ be48 (dv_mac d) ++ [8; 0] ++ plain_ip 6 40 c1 (dv_ip d) (snd h) ++ syn_segment c2 p) /\
  verifies (plain_ip 6 40 c1 (dv_ip d) (snd h)) /\ verifies (pseudo_header (dv_ip d) (snd h) 6 20 ++ syn_segment c2 p).
Proof.
  intros DO D1 D2 P. pose proof (tcp_request_ok d h p DO D1 D2 P) as OK. destruct (packet_total ovf _ OK) as (bs & E). destruct DO as (M & A & _).
  destruct OK as (OE & OH & OB & _). cbn [tcp_request packet_ip pk_header pk_body] in OE, OH, OB.
  destruct (frame_parts _ _ _ _ _ E) as (hb & bb & H1 & H2 & ->).
  pose proof (iph_verifies _ _ _ _ OH H1) as V1. apply ip_on_wire in H1; [|exact OH|reflexivity]. destruct H1 as (c1 & C1 & ->).
  cbn [body_bytes] in H2. destruct OB as (_ & OT & _). destruct (tcp_verifies_pseudo _ _ _ _ OT OH eq_refl H2) as [L V2].
  apply tcp_on_wire in H2; [|exact OT|reflexivity]. destruct H2 as (c2 & C2 & ->).
  assert (EM : tcp_layout (tcp_new SPORT p 2 []) 0 c2 = syn_segment c2 p).
  { unfold tcp_layout, syn_segment. cbn [tcp_new tp_sport tp_dport tp_seq tp_ack tp_flags tp_wsize tp_options tp_data]. rewrite !app_nil_r. reflexivity. }
  rewrite L in V2. rewrite EM in *. rewrite plain_layout in *. exists c1, c2. split; [exact C1|]. split; [exact C2|]. split; [|split; [exact V1|exact V2]].
  rewrite E. f_equal. rewrite eth_on_wire by exact OE. unfold eth_layout. cbn [eh_dst eh_src eh_type]. rewrite <- !app_assoc. reflexivity.
Qed.

(** ** Headers with any values are bytes *)
Lemma nibbles a b : (a * 16) mod 256 + b mod 16 < 256.
Proof. change 256 with (16 * 16) at 1. rewrite N.mul_mod_distr_r by discriminate. pose proof (N.mod_lt a 16 ltac:(discriminate)). pose proof (N.mod_lt b 16 ltac:(discriminate)). lia. Qed.
Lemma six_two a b : (a * 4) mod 256 + b mod 4 < 256.
Proof. change 256 with (64 * 4) at 1. rewrite N.mul_mod_distr_r by discriminate. pose proof (N.mod_lt a 64 ltac:(discriminate)). pose proof (N.mod_lt b 4 ltac:(discriminate)). lia. Qed.
Lemma any_header ovf h dlen b : ih_ttl h < 256 -> protocol_ok (ih_proto h) -> wf_bytes (ih_options h) -> iph_bytes ovf h dlen = ROk b -> wf_bytes b.
Proof.
  intros T P W E. unfold iph_bytes in E. destruct (add ovf 8 5 (u8 (opt_count (ih_options h)))) as [ihl| |]; cbn [bind] in E; try discriminate E.
  cbv zeta in E. apply ROk_inj in E. subst b. apply wf_app; [|exact W]. unfold ip_raw, u8. change (2 ^ 8) with 256.
  wf; [apply nibbles|apply six_two|exact (proj1 (protocol_code _ P))].
Qed.
(** ** What an echo request tells *)
Lemma echo_identifier id seq d : id < 65536 -> seq < 65536 -> icmp_identifier (echo_request id seq d) = id /\ icmp_seq (echo_request id seq d) = seq mod 256.
Proof.
  intros A B. destruct (echo_rest id seq A B) as [_ R]. unfold icmp_identifier, icmp_seq. cbn [echo_request ic_rest]. rewrite land_255, R. unfold u16. change (2 ^ 16) with 65536.
  split.
  - rewrite N.div_add_l by discriminate. rewrite (N.div_small seq) by assumption. rewrite N.add_0_r. now apply N.mod_small.
  - pose proof (N.mod_lt seq 256 ltac:(discriminate)). apply N.mod_small. lia.
Qed.
