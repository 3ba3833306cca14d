(** Raw packets: the checksums of the packets built. *)
From Coq Require Import NArith ZArith List Bool Lia ZifyBool ZifyNat ZifyN.
From Verif.Model Require Import Bytes Raw.
From Verif.Spec Require Import RawSpec.
From Verif.Proofs Require Import BytesFacts RawSums.
Import ListNotations.
Local Open Scope N_scope.

Lemma ROk_inj : forall {A} (a b : A), ROk a = ROk b -> a = b.
Proof. intros A a b H. now injection H. Qed.
Lemma nlen_to_be : forall k n, nlen (to_be k n) = N.of_nat k.
Proof. intros. unfold nlen. now rewrite to_be_length. Qed.
Lemma wf_cons : forall b l, b < 256 -> wf_bytes l -> wf_bytes (b :: l).
Proof. intros. now constructor. Qed.
Lemma wf_nil : wf_bytes [].
Proof. constructor. Qed.
Ltac wf := repeat first [apply to_be_wf | apply wf_app | apply wf_cons | apply wf_nil | assumption].
Ltac nl := rewrite ?nlen_app, ?nlen_to_be, ?nlen_cons, ?(@nlen_nil N).
Lemma to_be_zero : plain (to_be 2 0) = 0.
Proof. reflexivity. Qed.
Lemma even_4 : forall n, n mod 4 = 0 -> n mod 2 = 0.
Proof. intros n H. apply N.mod_divides in H; [|discriminate]. destruct H as [c ->]. rewrite N.mul_comm. replace (c * 4) with ((c * 2) * 2) by lia. apply N.mod_mul. discriminate. Qed.
Lemma opts_count : forall o, nlen o mod 4 = 0 -> 4 * opt_count o = nlen o.
Proof. intros o H. unfold opt_count. apply N.mod_divides in H; [|discriminate]. destruct H as [c ->]. rewrite (N.mul_comm 4 c), N.div_mul by discriminate. lia. Qed.

Lemma protocol_code : forall t, protocol_ok t -> ip_code t < 256 /\ ip_of (ip_code t) = t /\ ip_code t = protocol_number t.
Proof.
  intros [| | |c]; cbn [protocol_ok]; [repeat split; reflexivity..|]. intros [L I]. cbn [In] in I. cbn [ip_code]. repeat split; [exact L|].
  unfold ip_of. destruct (N.eqb_spec c 1); [lia|]. destruct (N.eqb_spec c 6); [lia|]. destruct (N.eqb_spec c 17); [lia|]. reflexivity.
Qed.
Lemma icmp_type_code : forall t, icmp_type_ok t -> icmp_code t < 256 /\ icmp_of (icmp_code t) = t /\ icmp_code t = icmp_number t.
Proof.
  intros [| |c]; cbn [icmp_type_ok]; [repeat split; reflexivity..|]. intros [L I]. cbn [In] in I. cbn [icmp_code]. repeat split; [exact L|].
  unfold icmp_of. destruct (N.eqb_spec c 8); [lia|]. destruct (N.eqb_spec c 0); [lia|]. reflexivity.
Qed.
Lemma operation_code : forall o, op_ok o -> op_code o < 65536 /\ op_of (op_code o) = o /\ op_code o = op_number o.
Proof.
  intros [| |c]; cbn [op_ok]; [repeat split; reflexivity..|]. intros [L I]. cbn [In] in I. cbn [op_code]. repeat split; [exact L|].
  unfold op_of. destruct (N.eqb_spec c 1); [lia|]. destruct (N.eqb_spec c 2); [lia|]. reflexivity.
Qed.

Lemma add_ok : forall ovf k a b, a + b < 2 ^ k -> add ovf k a b = ROk (a + b).
Proof.
  intros ovf k a b H. unfold add. destruct (N.leb_spec (2 ^ k) (a + b)) as [L|L]; [lia|]. rewrite andb_false_r, N.mod_small by assumption. reflexivity.
Qed.

(** ** IPv4 headers *)
Definition ip_head (h : iph) (ihl len : N) : bytes :=
  [u8 (ih_version h * 16) + ihl mod 16; u8 (ih_dscp h * 4) + ih_ecn h mod 4] ++ to_be 2 len ++ to_be 2 (ih_ident h)
  ++ to_be 2 (u16 (ih_flags h * 2 ^ 13) + ih_foffset h mod 2 ^ 13) ++ [ih_ttl h; ip_code (ih_proto h)].
Definition ip_tail (h : iph) : bytes := to_be 4 (ih_src h) ++ to_be 4 (ih_dst h).
Lemma ip_raw_split : forall h ihl len c, ip_raw h ihl len c = ip_head h ihl len ++ to_be 2 c ++ ip_tail h.
Proof. intros. unfold ip_raw, ip_head, ip_tail. rewrite <- !app_assoc. reflexivity. Qed.
Lemma ip_first : forall h ihl, ih_version h < 16 -> u8 (ih_version h * 16) + ihl mod 16 < 256.
Proof.
  intros h ihl H. unfold u8. change (2 ^ 8) with 256. pose proof (N.mod_lt ihl 16 ltac:(discriminate)).
  rewrite (N.mod_small (ih_version h * 16)) by lia. lia.
Qed.
Lemma ip_second : forall h, ih_dscp h < 64 -> u8 (ih_dscp h * 4) + ih_ecn h mod 4 < 256.
Proof.
  intros h H. unfold u8. change (2 ^ 8) with 256. pose proof (N.mod_lt (ih_ecn h) 4 ltac:(discriminate)).
  rewrite (N.mod_small (ih_dscp h * 4)) by lia. lia.
Qed.
Lemma ip_head_wf : forall h ihl len, iph_ok h -> wf_bytes (ip_head h ihl len).
Proof.
  intros h ihl len [O1 O2 O3 O4 O5 O6 O7 O8 O9 O10 O11]. unfold ip_head. wf; [now apply ip_first|now apply ip_second|exact (proj1 (protocol_code _ O8))].
Qed.
Lemma ip_head_len : forall h ihl len, nlen (ip_head h ihl len) = 10.
Proof. intros. unfold ip_head. nl. reflexivity. Qed.
Lemma ip_tail_len : forall h, nlen (ip_tail h) = 8.
Proof. intros. unfold ip_tail. nl. reflexivity. Qed.
Lemma ip_tail_wf : forall h, wf_bytes (ip_tail h).
Proof. intros. unfold ip_tail. wf. Qed.

Definition ip_len (h : iph) (dlen : N) : N := 20 + nlen (ih_options h) + dlen.
Lemma iph_bytes_eq : forall ovf h dlen, options_ok (ih_options h) -> exists s,
  iph_bytes ovf h dlen = ROk (ip_head h (5 + opt_count (ih_options h)) (u16 (ip_len h dlen)) ++ to_be 2 (sum_to_checksum s) ++ ip_tail h ++ ih_options h) /\
  s = u32 (u32 (plain (ip_head h (5 + opt_count (ih_options h)) (u16 (ip_len h dlen))) + plain (ip_tail h)) + u32 (plain (ih_options h))).
Proof.
  intros ovf h dlen (W & M & B). unfold iph_bytes. pose proof (opts_count _ M) as Q.
  unfold u8 at 1. change (2 ^ 8) with 256. rewrite (N.mod_small (opt_count (ih_options h))) by lia.
  rewrite add_ok by (change (2 ^ 8) with 256; lia). cbn [bind]. rewrite Q. fold (ip_len h dlen). eexists. split.
  - rewrite ip_raw_split, <- !app_assoc. reflexivity.
  - rewrite ip_raw_split. rewrite !sum_be_plain by reflexivity. rewrite !N.add_0_l.
    rewrite plain_app by (rewrite ip_head_len; reflexivity). rewrite plain_app by reflexivity. rewrite to_be_zero, N.add_0_l. reflexivity.
Qed.
Lemma iph_verifies : forall ovf h dlen b, iph_ok h -> iph_bytes ovf h dlen = ROk b -> verifies b.
Proof.
  intros ovf h dlen b Ok E. destruct (iph_bytes_eq ovf h dlen (ok_options _ Ok)) as (s & E' & Hs). rewrite E in E'. apply ROk_inj in E'. rewrite E' in *. clear E E'.
  destruct (ok_options _ Ok) as (W & M & B).
  pose proof (plain_bound _ (ip_head_wf h (5 + opt_count (ih_options h)) (u16 (ip_len h dlen)) Ok)) as P1. rewrite ip_head_len in P1.
  pose proof (plain_bound _ (ip_tail_wf h)) as P2. rewrite ip_tail_len in P2.
  pose proof (plain_bound _ W) as P3.
  unfold u32 in Hs. change (2 ^ 32) with 4294967296 in Hs.
  rewrite (N.mod_small (plain (ih_options h))) in Hs by lia. rewrite (N.mod_small (plain _ + plain (ip_tail h))) in Hs by lia. rewrite N.mod_small in Hs by lia.
  apply checksum_verifies.
  - now apply ip_head_wf.
  - apply wf_app; [apply ip_tail_wf|assumption].
  - rewrite ip_head_len. reflexivity.
  - change (2 ^ 32) with 4294967296. lia.
  - rewrite (plain_app (ip_tail h)) by (rewrite ip_tail_len; reflexivity). lia.
Qed.

(** ** TCP *)
Definition tcp_head (p : tcp) (df : N) : bytes :=
  to_be 2 (tp_sport p) ++ to_be 2 (tp_dport p) ++ to_be 4 (tp_seq p) ++ to_be 4 (tp_ack p) ++ to_be 2 df ++ to_be 2 (tp_wsize p).
Lemma tcp_raw_split : forall p df c, tcp_raw p df c = tcp_head p df ++ to_be 2 c ++ to_be 2 0.
Proof. intros. unfold tcp_raw, tcp_head. rewrite <- !app_assoc. reflexivity. Qed.
Lemma tcp_head_len : forall p df, nlen (tcp_head p df) = 16.
Proof. intros. unfold tcp_head. nl. reflexivity. Qed.
Lemma tcp_head_wf : forall p df, wf_bytes (tcp_head p df).
Proof. intros. unfold tcp_head. wf. Qed.
Lemma pseudo_len : forall h n, nlen (pseudo h n) = 12.
Proof. intros. unfold pseudo. nl. reflexivity. Qed.
Lemma pseudo_wf : forall h n, ip_code (ih_proto h) < 256 -> wf_bytes (pseudo h n).
Proof. intros. unfold pseudo. wf. reflexivity. Qed.
Definition tcp_df (p : tcp) : N := (5 + opt_count (tp_options p)) * 4096 + tp_flags p mod 512.

Lemma tcp_bytes_eq : forall ovf h p, options_ok (tp_options p) -> 20 + nlen (tp_options p) + nlen (tp_data p) < 65536 -> exists s,
  tcp_bytes ovf h p = ROk (tcp_head p (tcp_df p) ++ to_be 2 (sum_to_checksum s) ++ to_be 2 0 ++ tp_options p ++ tp_data p) /\
  s = u32 (u32 (u32 (u32 (plain (pseudo h (20 + nlen (tp_options p) + nlen (tp_data p)))) + u32 (plain (tcp_head p (tcp_df p)))) + u32 (plain (tp_options p))) + u32 (plain (tp_data p))).
Proof.
  intros ovf h p (W & M & B) L. unfold tcp_bytes. pose proof (opts_count _ M) as Q.
  unfold u16 at 1. change (2 ^ 16) with 65536. rewrite (N.mod_small (opt_count (tp_options p))) by lia.
  rewrite add_ok by (change (2 ^ 16) with 65536; lia). cbn [bind].
  unfold u16 at 1 2. change (2 ^ 16) with 65536. rewrite (N.mod_small (nlen (tp_data p))) by lia. rewrite (N.mod_small ((5 + opt_count (tp_options p)) * 4)) by lia.
  rewrite add_ok by (change (2 ^ 16) with 65536; lia). cbn [bind].
  replace ((5 + opt_count (tp_options p)) * 4) with (20 + nlen (tp_options p)) by lia.
  assert (D : u16 ((5 + opt_count (tp_options p)) * 2 ^ 12) + tp_flags p mod 2 ^ 9 = tcp_df p).
  { unfold u16, tcp_df. change (2 ^ 16) with 65536. change (2 ^ 12) with 4096. change (2 ^ 9) with 512. rewrite (N.mod_small (_ * _)) by lia. reflexivity. }
  rewrite D. eexists. split.
  - rewrite tcp_raw_split, <- !app_assoc. reflexivity.
  - rewrite tcp_raw_split. rewrite !sum_be_plain by reflexivity. rewrite !N.add_0_l.
    rewrite (plain_app (tcp_head _ _)) by (rewrite tcp_head_len; reflexivity). rewrite plain_app by reflexivity. rewrite to_be_zero, !N.add_0_r. reflexivity.
Qed.
Lemma tcp_verifies : forall ovf h p b, tcp_ok p -> ip_code (ih_proto h) < 256 -> 20 + nlen (tp_options p) + nlen (tp_data p) < 65536 ->
  tcp_bytes ovf h p = ROk b -> nlen b = 20 + nlen (tp_options p) + nlen (tp_data p) /\ verifies (pseudo h (nlen b) ++ b).
Proof.
  intros ovf h p b Ok Hc L E. destruct (tcp_bytes_eq ovf h p (ok_toptions _ Ok) L) as (s & E' & Hs). rewrite E in E'. apply ROk_inj in E'. rewrite E' in *. clear E E'.
  destruct (ok_toptions _ Ok) as (W & M & B). pose proof (ok_data _ Ok) as D.
  assert (N0 : nlen (tcp_head p (tcp_df p) ++ to_be 2 (sum_to_checksum s) ++ to_be 2 0 ++ tp_options p ++ tp_data p) = 20 + nlen (tp_options p) + nlen (tp_data p)).
  { rewrite !nlen_app, tcp_head_len, !nlen_to_be. lia. }
  split; [assumption|]. rewrite N0. set (n := 20 + nlen (tp_options p) + nlen (tp_data p)) in *.
  pose proof (plain_bound _ (pseudo_wf h n Hc)) as P1. rewrite pseudo_len in P1.
  pose proof (plain_bound _ (tcp_head_wf p (tcp_df p))) as P2. rewrite tcp_head_len in P2.
  pose proof (plain_bound _ W) as P3. pose proof (plain_bound _ D) as P4.
  unfold u32 in Hs. change (2 ^ 32) with 4294967296 in Hs.
  rewrite (N.mod_small (plain (pseudo h n))) in Hs by lia. rewrite (N.mod_small (plain (tcp_head _ _))) in Hs by lia.
  rewrite (N.mod_small (plain (tp_options p))) in Hs by lia. rewrite (N.mod_small (plain (tp_data p))) in Hs by lia.
  rewrite (N.mod_small (plain (pseudo h n) + _)) in Hs by lia. rewrite (N.mod_small (_ + plain (tp_options p))) in Hs by lia. rewrite N.mod_small in Hs by lia.
  rewrite app_assoc. apply checksum_verifies.
  - apply wf_app; [now apply pseudo_wf|apply tcp_head_wf].
  - wf.
  - rewrite nlen_app, pseudo_len, tcp_head_len. reflexivity.
  - change (2 ^ 32) with 4294967296. lia.
  - rewrite (plain_app (pseudo h n)) by (rewrite pseudo_len; reflexivity). rewrite (plain_app (to_be 2 0)) by reflexivity.
    rewrite (plain_app (tp_options p)) by now apply even_4. rewrite to_be_zero. lia.
Qed.

(** ** ICMP *)
Lemma be4_split : forall n, n < 2 ^ 32 -> plain (to_be 4 n) = n / 65536 + n mod 65536.
Proof.
  intros n H. change (2 ^ 32) with 4294967296 in H. unfold plain. cbn [to_be app words16 total fold_right]. rewrite N.add_0_r.
  rewrite !N.div_div by discriminate. change (256 * 256) with 65536.
  pose proof (N.div_mod (n / 65536) 256 ltac:(discriminate)) as A. rewrite N.div_div in A by discriminate.
  assert (n / 65536 < 65536) by (apply N.div_lt_upper_bound; lia).
  assert (n / (65536 * 256) < 256) by (apply N.div_lt_upper_bound; lia). change (65536 * 256) with (256 * 65536) in *.
  rewrite (N.mod_small (n / (256 * 65536))) by assumption.
  pose proof (N.div_mod n 65536 ltac:(discriminate)). pose proof (N.div_mod n 256 ltac:(discriminate)).
  pose proof (N.div_mod (n / 256) 256 ltac:(discriminate)) as C. rewrite N.div_div in C by discriminate. change (256 * 256) with 65536 in C.
  f_equal; lia.
Qed.
Lemma land_255 : forall n, N.land n 255 = (n mod 65536) mod 256.
Proof.
  intros n. change 255 with (N.ones 8). rewrite N.land_ones. change (2 ^ 8) with 256. change 65536 with (256 * 256).
  rewrite N.mod_mul_r by discriminate. rewrite (N.mul_comm 256), N.mod_add by discriminate. now rewrite N.mod_mod by discriminate.
Qed.
Lemma icmp_verifies : forall p, icmp_ok p -> 8 + nlen (ic_body p) < 65536 -> (verifies (icmp_bytes p) <-> ic_rest p mod 65536 < 256).
Proof.
  intros p [OT O2 O3 O4] L. destruct (icmp_type_code _ OT) as [O1 _]. pose proof (plain_bound _ O4) as P4.
  assert (A : ic_rest p / 2 ^ 16 < 65536) by (change (2 ^ 32) with 4294967296 in O3; apply N.div_lt_upper_bound; change (2 ^ 16) with 65536; lia).
  pose proof (N.mod_lt (ic_rest p) 65536 ltac:(discriminate)) as M1. set (x := ic_rest p mod 65536) in *.
  pose proof (N.mod_lt x 256 ltac:(discriminate)) as M2. pose proof (N.div_mod x 256 ltac:(discriminate)) as DM.
  assert (x / 256 < 256) by (apply N.div_lt_upper_bound; lia).
  set (s := icmp_code (ic_type p) * 256 + ic_code p + ic_rest p / 2 ^ 16 + x mod 256 + plain (ic_body p)).
  assert (S : icmp_checksum p = sum_to_checksum s).
  { unfold icmp_checksum. rewrite sum_be_plain by reflexivity. rewrite land_255. fold x. rewrite N.add_0_l. unfold u32. change (2 ^ 32) with 4294967296.
    rewrite (N.mod_small (plain (ic_body p))) by lia. rewrite (N.mod_small (_ + ic_rest p / 2 ^ 16)) by lia.
    rewrite (N.mod_small (_ + x mod 256)) by lia. rewrite (N.mod_small (_ + plain (ic_body p))) by lia. reflexivity. }
  assert (Hs : s < 2 ^ 32) by (change (2 ^ 32) with 4294967296; unfold s; lia).
  destruct (checksum_value s Hs) as (k & K1 & K2).
  assert (P : plain (icmp_bytes p) = 65535 * (k + 1) + 256 * (x / 256)).
  { unfold icmp_bytes. rewrite plain_app by reflexivity. rewrite plain_app by reflexivity. rewrite plain_app by reflexivity. rewrite be4_split by assumption. fold x.
    rewrite S. replace (plain (to_be 2 (sum_to_checksum s))) with (sum_to_checksum s).
    - unfold plain at 1. cbn [words16 total fold_right]. change 65536 with (2 ^ 16). unfold s in *. lia.
    - unfold plain. cbn [to_be app words16 total fold_right]. pose proof (N.div_mod (sum_to_checksum s) 256 ltac:(discriminate)).
      assert (sum_to_checksum s / 256 < 256) by (apply N.div_lt_upper_bound; lia). rewrite (N.mod_small (sum_to_checksum s / 256)) by assumption. lia. }
  rewrite verifies_iff.
  - rewrite P, N.add_comm, (N.mul_comm 65535), N.mod_add by discriminate. rewrite N.mod_small by lia. lia.
  - unfold icmp_bytes. wf.
  - lia.
Qed.
