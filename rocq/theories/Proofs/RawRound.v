(** Raw packets: parsing what was built. *)
From Coq Require Import NArith ZArith List Bool Lia ZifyBool ZifyNat ZifyN.
From Verif.Model Require Import Bytes Raw.
From Verif.Spec Require Import RawSpec.
From Verif.Proofs Require Import BytesFacts RawSums RawChecks.
Import ListNotations.
Local Open Scope N_scope.

Lemma be2 : forall n, exists a b, to_be 2 n = [a; b] /\ (n < 65536 -> of_be [a; b] = n).
Proof.
  intros n. exists ((n / 256) mod 256), (n mod 256). split; [reflexivity|]. intros H.
  change [(n / 256) mod 256; n mod 256] with (to_be 2 n). apply of_be_to_be_small. exact H.
Qed.
Lemma be4 : forall n, exists a b c d, to_be 4 n = [a; b; c; d] /\ (n < 2 ^ 32 -> of_be [a; b; c; d] = n).
Proof.
  intros n. exists ((n / 256 / 256 / 256) mod 256), ((n / 256 / 256) mod 256), ((n / 256) mod 256), (n mod 256). split; [reflexivity|]. intros H.
  change [(n / 256 / 256 / 256) mod 256; (n / 256 / 256) mod 256; (n / 256) mod 256; n mod 256] with (to_be 4 n). apply of_be_to_be_small. exact H.
Qed.
Lemma be6 : forall n, exists a b c d e f, to_be 6 n = [a; b; c; d; e; f] /\ (n < 2 ^ 48 -> of_be [a; b; c; d; e; f] = n).
Proof.
  intros n. pose proof (of_be_to_be_small 6 n) as H. pose proof (to_be_length 6 n) as L.
  destruct (to_be 6 n) as [|a [|b [|c [|d [|e [|f [|]]]]]]]; try discriminate L. exists a, b, c, d, e, f. split; [reflexivity|]. exact H.
Qed.
Lemma of_be_1 : forall a, of_be [a] = a.
Proof. reflexivity. Qed.
Lemma firstn_nlen : forall (a b : bytes) n, n = nlen a -> firstn (N.to_nat n) (a ++ b) = a.
Proof. intros a b n ->. unfold nlen. rewrite Nat2N.id. apply (field_app_here a b _ eq_refl). Qed.
Lemma skipn_nlen : forall (a b : bytes) n, n = nlen a -> skipn (N.to_nat n) (a ++ b) = b.
Proof. intros a b n ->. unfold nlen. rewrite Nat2N.id. rewrite skipn_app, skipn_all, Nat.sub_diag. reflexivity. Qed.

(** ** ICMP *)
Lemma icmp_round : forall p, icmp_ok p -> icmp_parse (icmp_bytes p) = ROk p.
Proof.
  intros p [OT O2 O3 O4]. destruct (icmp_type_code _ OT) as (O1 & O1' & _). unfold icmp_bytes.
  destruct (be2 (icmp_checksum p)) as (a & b & E & _). destruct (be4 (ic_rest p)) as (c & d & e & f & E4 & V4). rewrite E, E4. clear E E4.
  unfold icmp_parse. cbn [app]. rewrite !nlen_cons.
  destruct (N.ltb_spec (1 + (1 + (1 + (1 + (1 + (1 + (1 + (1 + nlen (ic_body p))))))))) 8) as [L|_]; [lia|].
  cbn [field skipn firstn]. rewrite !of_be_1, O1', V4 by assumption. now destruct p.
Qed.
Lemma icmp_len : forall p, nlen (icmp_bytes p) = 8 + nlen (ic_body p).
Proof. intros p. unfold icmp_bytes. nl. lia. Qed.

(** ** TCP *)
Lemma df_parts : forall p, tcp_ok p -> tcp_df p < 65536 /\ tcp_df p / 2 ^ 12 = 5 + opt_count (tp_options p) /\ tcp_df p mod 2 ^ 9 = tp_flags p.
Proof.
  intros p Ok. destruct (ok_toptions _ Ok) as (W & M & B). pose proof (opts_count _ M) as Q. pose proof (ok_tflags _ Ok) as F.
  unfold tcp_df. rewrite (N.mod_small (tp_flags p)) by assumption. change (2 ^ 12) with 4096. change (2 ^ 9) with 512.
  split; [lia|]. split.
  - rewrite N.div_add_l by discriminate. rewrite (N.div_small (tp_flags p)) by lia. lia.
  - rewrite N.add_comm. replace ((5 + opt_count (tp_options p)) * 4096) with ((5 + opt_count (tp_options p)) * 8 * 512) by lia. rewrite N.mod_add by discriminate. apply N.mod_small. assumption.
Qed.
Lemma tcp_round : forall ovf h p b, tcp_ok p -> 20 + nlen (tp_options p) + nlen (tp_data p) < 65536 ->
  tcp_bytes ovf h p = ROk b -> tcp_parse b = ROk (no_urgent p).
Proof.
  intros ovf h p b Ok L E. destruct (tcp_bytes_eq ovf h p (ok_toptions _ Ok) L) as (s & E' & _). rewrite E in E'. apply ROk_inj in E'. rewrite E'. clear E E'.
  destruct (df_parts p Ok) as (D1 & D2 & D3). destruct (ok_toptions _ Ok) as (W & M & B). pose proof (opts_count _ M) as Q.
  unfold tcp_head. rewrite <- !app_assoc. generalize dependent (tcp_df p). intros df D1 D2 D3.
  destruct (be2 (tp_sport p)) as (? & ? & -> & V1). destruct (be2 (tp_dport p)) as (? & ? & -> & V2).
  destruct (be4 (tp_seq p)) as (? & ? & ? & ? & -> & V3). destruct (be4 (tp_ack p)) as (? & ? & ? & ? & -> & V4).
  destruct (be2 df) as (? & ? & -> & V5). destruct (be2 (tp_wsize p)) as (? & ? & -> & V6).
  destruct (be2 (sum_to_checksum s)) as (? & ? & -> & _). change (to_be 2 0) with [0; 0].
  unfold tcp_parse. cbn [app]. rewrite !nlen_cons, nlen_app.
  match goal with |- (if ?n <? 20 then _ else _) = _ => destruct (N.ltb_spec n 20) as [X|X]; [lia|clear X] end.
  cbn [field skipn firstn]. rewrite V5 by assumption. rewrite D2, D3.
  destruct (N.ltb_spec (5 + opt_count (tp_options p)) 5) as [X|X]; [lia|clear X].
  match goal with |- (if ?n <? ?m then _ else _) = _ => destruct (N.ltb_spec n m) as [X|X]; [lia|clear X] end.
  replace (4 * (5 + opt_count (tp_options p) - 5)) with (nlen (tp_options p)) by lia.
  rewrite V1, V2, V3, V4, V6 by apply Ok. unfold field. cbn [skipn Nat.add]. rewrite firstn_nlen, skipn_nlen by reflexivity.
  unfold no_urgent. reflexivity.
Qed.

(** ** IPv4 *)
Lemma iph_round : forall ovf h dlen b rest, iph_ok h -> ip_len h dlen < 65536 -> iph_bytes ovf h dlen = ROk b ->
  iph_parse (b ++ rest) = ROk (set_length h (ip_len h dlen)) /\ nlen b = 20 + nlen (ih_options h).
Proof.
  intros ovf h dlen b rest Ok L E. destruct (iph_bytes_eq ovf h dlen (ok_options _ Ok)) as (s & E' & _). rewrite E in E'. apply ROk_inj in E'. rewrite E'. clear E E'.
  destruct (ok_options _ Ok) as (W & M & B). pose proof (opts_count _ M) as Q. destruct (protocol_code _ (ok_proto _ Ok)) as (O1 & O2 & _).
  assert (LL : u16 (ip_len h dlen) = ip_len h dlen) by (apply N.mod_small; exact L). rewrite LL.
  split; [|rewrite !nlen_app, ip_head_len, ip_tail_len, nlen_to_be; lia].
  unfold ip_head, ip_tail. rewrite <- !app_assoc.
  assert (F1 : u8 (ih_version h * 16) + (5 + opt_count (ih_options h)) mod 16 = ih_version h * 16 + (5 + opt_count (ih_options h))).
  { unfold u8. change (2 ^ 8) with 256. pose proof (ok_version _ Ok). rewrite !N.mod_small by lia. reflexivity. }
  assert (F2 : u8 (ih_dscp h * 4) + ih_ecn h mod 4 = ih_dscp h * 4 + ih_ecn h).
  { unfold u8. change (2 ^ 8) with 256. pose proof (ok_dscp _ Ok). pose proof (ok_ecn _ Ok). rewrite !N.mod_small by lia. reflexivity. }
  assert (F3 : u16 (ih_flags h * 2 ^ 13) + ih_foffset h mod 2 ^ 13 = ih_flags h * 8192 + ih_foffset h).
  { unfold u16. change (2 ^ 16) with 65536. change (2 ^ 13) with 8192. pose proof (ok_flags _ Ok). pose proof (ok_foffset _ Ok). rewrite !N.mod_small by lia. reflexivity. }
  rewrite F1, F2, F3. clear F1 F2 F3.
  destruct (be2 (ip_len h dlen)) as (? & ? & -> & V1). destruct (be2 (ih_ident h)) as (? & ? & -> & V2).
  assert (FB : ih_flags h * 8192 + ih_foffset h < 65536) by (pose proof (ok_flags _ Ok); pose proof (ok_foffset _ Ok); lia).
  destruct (be2 (ih_flags h * 8192 + ih_foffset h)) as (? & ? & -> & V3). destruct (be2 (sum_to_checksum s)) as (? & ? & -> & _).
  destruct (be4 (ih_src h)) as (? & ? & ? & ? & -> & V4). destruct (be4 (ih_dst h)) as (? & ? & ? & ? & -> & V5).
  unfold iph_parse. cbn [app]. rewrite !nlen_cons, nlen_app.
  match goal with |- (if ?n <? 20 then _ else _) = _ => destruct (N.ltb_spec n 20) as [X|X]; [lia|clear X] end.
  cbn [field skipn firstn]. rewrite !of_be_1. rewrite V1, V2, V3 by first [assumption|apply Ok]. rewrite V4, V5 by apply Ok. clear V1 V2 V3 V4 V5.
  assert (G1 : (ih_version h * 16 + (5 + opt_count (ih_options h))) mod 16 = 5 + opt_count (ih_options h)).
  { rewrite N.add_comm, N.mod_add by discriminate. apply N.mod_small. lia. }
  assert (G2 : (ih_version h * 16 + (5 + opt_count (ih_options h))) / 16 = ih_version h).
  { rewrite N.div_add_l by discriminate. rewrite (N.div_small (5 + _)) by lia. lia. }
  assert (G3 : (ih_dscp h * 4 + ih_ecn h) / 4 = ih_dscp h).
  { rewrite N.div_add_l by discriminate. rewrite (N.div_small (ih_ecn h)) by apply Ok. lia. }
  assert (G4 : (ih_dscp h * 4 + ih_ecn h) mod 4 = ih_ecn h).
  { rewrite N.add_comm, N.mod_add by discriminate. apply N.mod_small. apply Ok. }
  change (2 ^ 13) with 8192.
  assert (G5 : (ih_flags h * 8192 + ih_foffset h) / 8192 = ih_flags h).
  { rewrite N.div_add_l by discriminate. rewrite (N.div_small (ih_foffset h)) by apply Ok. lia. }
  assert (G6 : (ih_flags h * 8192 + ih_foffset h) mod 8192 = ih_foffset h).
  { rewrite N.add_comm, N.mod_add by discriminate. apply N.mod_small. apply Ok. }
  rewrite G1, G2, G3, G4, G5, G6.
  destruct (N.ltb_spec (5 + opt_count (ih_options h)) 5) as [X|X]; [lia|clear X].
  match goal with |- (if ?n <? ?m then _ else _) = _ => destruct (N.ltb_spec n m) as [X|X]; [lia|clear X] end.
  replace (4 * (5 + opt_count (ih_options h) - 5)) with (nlen (ih_options h)) by lia.
  unfold field. cbn [skipn Nat.add]. rewrite firstn_nlen by reflexivity. rewrite O2. reflexivity.
Qed.
Definition body_no_urgent (b : ip_body) : ip_body := match b with BTcp t => BTcp (no_urgent t) | _ => b end.
Lemma body_len_ok : forall h b, body_ok h b -> body_len b = match b with BIcmp p => 8 + nlen (ic_body p) | BTcp p => 20 + nlen (tp_options p) + nlen (tp_data p) | BRaw d => nlen d end.
Proof. intros h [p|p|d] [L H]; cbn [body_len]; [reflexivity| |reflexivity]. destruct H as [H _]. destruct (ok_toptions _ H) as (_ & M & _). rewrite (opts_count _ M). reflexivity. Qed.
Lemma ip_round : forall ovf h b bs, iph_ok h -> body_ok h b -> ip_bytes ovf h b = ROk bs ->
  ip_parse bs = ROk (set_length h (ip_len h (body_len b)), body_no_urgent b).
Proof.
  intros ovf h b bs Ok Bk E. unfold ip_bytes in E. pose proof (body_len_ok h b Bk) as BL. destruct Bk as [L Bk].
  destruct (iph_bytes ovf h (body_len b)) as [hb| |] eqn:Eh; cbn [bind] in E; try discriminate E.
  destruct (body_bytes ovf h b) as [bb| |] eqn:Eb; cbn [bind] in E; try discriminate E. apply ROk_inj in E. subst bs.
  destruct (iph_round ovf h (body_len b) hb bb Ok L Eh) as [P N0]. unfold ip_parse. rewrite P. cbn [bind].
  replace (skipn (20 + length (ih_options (set_length h (ip_len h (body_len b))))) (hb ++ bb)) with bb.
  2:{ symmetry. rewrite <- (skipn_nlen hb bb _ eq_refl) at 2. f_equal. rewrite N0. unfold nlen. cbn [set_length ih_options]. lia. }
  cbn [set_length ih_proto]. destruct b as [p|p|d]; cbn [body_no_urgent body_bytes] in *.
  - destruct Bk as [Hp ->]. apply ROk_inj in Eb. subst bb. rewrite icmp_round by assumption. reflexivity.
  - destruct Bk as [Hp ->]. rewrite (tcp_round ovf h p bb Hp); [reflexivity| |assumption]. lia.
  - destruct Bk as [N1 N2]. apply ROk_inj in Eb. subst d. destruct (ih_proto h); congruence.
Qed.
Lemma tcp_total : forall ovf h p, options_ok (tp_options p) -> 20 + nlen (tp_options p) + nlen (tp_data p) < 65536 -> exists b, tcp_bytes ovf h p = ROk b.
Proof. intros ovf h p O L. destruct (tcp_bytes_eq ovf h p O L) as (s & E & _). eauto. Qed.
Lemma ip_total : forall ovf h b, iph_ok h -> body_ok h b -> exists bs, ip_bytes ovf h b = ROk bs.
Proof.
  intros ovf h b Ok Bk. pose proof (body_len_ok h b Bk) as BL. destruct Bk as [L Bk]. unfold ip_bytes.
  destruct (iph_bytes_eq ovf h (body_len b) (ok_options _ Ok)) as (s & E & _). rewrite E. cbn [bind].
  destruct b as [p|p|d]; cbn [body_bytes]; [eexists; reflexivity| |eexists; reflexivity].
  destruct Bk as [Hp _]. destruct (tcp_total ovf h p (ok_toptions _ Hp)) as (c & ->); [lia|]. eexists; reflexivity.
Qed.

(** ** ARP *)
Lemma arp_round : forall p rest, arp_ok p -> arp_parse (arp_bytes p ++ rest) = ROk p.
Proof.
  intros p rest [O1 O2 O3 O4 OO S1 S2 S3 S4]. destruct (operation_code _ OO) as (O5 & O6 & _). unfold arp_bytes. rewrite <- !app_assoc.
  destruct (be2 (ar_htype p)) as (? & ? & -> & V1). destruct (be2 (ar_ptype p)) as (? & ? & -> & V2). destruct (be2 (op_code (ar_oper p))) as (? & ? & -> & V3).
  unfold arp_parse. cbn [app]. rewrite !nlen_cons, !nlen_app.
  match goal with |- (if ?n <? 8 then _ else _) = _ => destruct (N.ltb_spec n 8) as [X|X]; [lia|clear X] end.
  cbn [field skipn firstn]. rewrite !of_be_1. rewrite V1, V2, V3, O6 by assumption.
  match goal with |- (if ?n <? ?m then _ else _) = _ => destruct (N.ltb_spec n m) as [X|X]; [lia|clear X] end.
  unfold field. cbn [Nat.add skipn]. rewrite firstn_nlen by (symmetry; assumption).
  rewrite <- !(fun a b => skipn_skipn' a b (ar_sha p ++ ar_spa p ++ ar_tha p ++ ar_tpa p ++ rest)).
  rewrite !(skipn_nlen (ar_sha p)) by (symmetry; assumption). rewrite <- ?skipn_skipn'.
  rewrite (firstn_nlen (ar_spa p)) by (symmetry; assumption). rewrite ?(skipn_nlen (ar_sha p)) by (symmetry; assumption).
  rewrite !(skipn_nlen (ar_spa p)) by (symmetry; assumption). rewrite (firstn_nlen (ar_tha p)) by (symmetry; assumption).
  rewrite !(skipn_nlen (ar_tha p)) by (symmetry; assumption). rewrite (firstn_nlen (ar_tpa p)) by (symmetry; assumption).
  now destruct p.
Qed.

(** ** Ethernet *)
Lemma eth_len : forall h, nlen (eth_bytes h) = 14.
Proof. intros. unfold eth_bytes. nl. reflexivity. Qed.
Lemma eth_fields : forall h rest, eth_ok h ->
  of_be (field (eth_bytes h ++ rest) 0 6) = eh_dst h /\ of_be (field (eth_bytes h ++ rest) 6 6) = eh_src h /\
  of_be (field (eth_bytes h ++ rest) 12 2) = eh_type h /\ skipn 14 (eth_bytes h ++ rest) = rest.
Proof.
  intros h rest [O1 O2 O3]. unfold eth_bytes. rewrite <- !app_assoc.
  destruct (be6 (eh_dst h)) as (? & ? & ? & ? & ? & ? & -> & V1). destruct (be6 (eh_src h)) as (? & ? & ? & ? & ? & ? & -> & V2). destruct (be2 (eh_type h)) as (? & ? & -> & V3).
  cbn [app field skipn firstn]. rewrite V1, V2, V3 by assumption. repeat split; reflexivity.
Qed.
Lemma packet_round : forall ovf p bs, packet_ok p -> packet_bytes ovf p = ROk bs -> packet_parse bs = ROk (with_length (without_urgent p)).
Proof.
  intros ovf [h b] bs [Ok Bk] E. cbn [pk_header pk_body] in *. unfold packet_bytes in E. cbn [pk_header pk_body] in E.
  assert (X : forall body, packet_parse (eth_bytes h ++ body) =
    if eh_type h =? 2054 then bind (arp_parse body) (fun a => ROk {| pk_header := h; pk_body := EArp a |})
    else if eh_type h =? 2048 then bind (ip_parse body) (fun x => ROk {| pk_header := h; pk_body := EIp (fst x) (snd x) |})
    else ROk {| pk_header := h; pk_body := ERaw body |}).
  { intros body. unfold packet_parse. rewrite nlen_app, eth_len. destruct (N.ltb_spec (14 + nlen body) 14) as [Y|_]; [lia|].
    destruct (eth_fields h body Ok) as (-> & -> & -> & ->). cbn [eh_type]. destruct h; reflexivity. }
  destruct b as [a|ih ib|d]; unfold with_length, without_urgent; cbn [pk_header pk_body] in *.
  - destruct Bk as [Ha Ht]. cbn [bind] in E. apply ROk_inj in E. subst bs. rewrite X, Ht. cbn [N.eqb Pos.eqb].
    rewrite <- (app_nil_r (arp_bytes a)), arp_round by assumption. reflexivity.
  - destruct Bk as [Hi [Hb Ht]]. destruct (ip_bytes ovf ih ib) as [c| |] eqn:Ec; cbn [bind] in E; try discriminate E. apply ROk_inj in E. subst bs.
    rewrite X, Ht. cbn [N.eqb Pos.eqb]. rewrite (ip_round ovf ih ib c Hi Hb Ec). cbn [bind fst snd].
    destruct ib as [q|q|d]; cbn [body_no_urgent]; unfold ip_len; reflexivity.
  - destruct Bk as [T1 T2]. cbn [bind] in E. apply ROk_inj in E. subst bs. rewrite X.
    destruct (N.eqb_spec (eh_type h) 2054); [congruence|]. destruct (N.eqb_spec (eh_type h) 2048); [congruence|]. reflexivity.
Qed.
Lemma packet_total : forall ovf p, packet_ok p -> exists bs, packet_bytes ovf p = ROk bs.
Proof.
  intros ovf [h [a|ih ib|d]] [Ok Bk]; unfold packet_bytes; cbn [pk_header pk_body bind] in *; try (eexists; reflexivity).
  destruct Bk as [Hi [Hb _]]. destruct (ip_total ovf ih ib Hi Hb) as (c & ->). eexists; reflexivity.
Qed.
(** Padding of a frame with an IPv4 packet which is not TCP or ICMP becomes its payload. *)
Lemma padding_kept : forall ovf h ih d pad bs, eth_ok h -> eh_type h = 2048 -> iph_ok ih -> body_ok ih (BRaw d) ->
  packet_bytes ovf {| pk_header := h; pk_body := EIp ih (BRaw d) |} = ROk bs ->
  packet_parse (bs ++ pad) = ROk {| pk_header := h; pk_body := EIp (set_length ih (ip_len ih (nlen d))) (BRaw (d ++ pad)) |}.
Proof.
  intros ovf h ih d pad bs Ok Ht Hi [L [N1 N2]] E. unfold packet_bytes in E. cbn [pk_header pk_body] in E.
  unfold ip_bytes in E. destruct (iph_bytes ovf ih (body_len (BRaw d))) as [hb| |] eqn:Eh; cbn [bind body_bytes] in E; try discriminate E. apply ROk_inj in E. subst bs.
  rewrite <- !app_assoc. unfold packet_parse. rewrite nlen_app, eth_len. destruct (N.ltb_spec (14 + nlen (hb ++ d ++ pad)) 14) as [Y|_]; [lia|].
  destruct (eth_fields h (hb ++ d ++ pad) Ok) as (-> & -> & -> & ->). cbn [eh_type]. rewrite Ht. cbn [N.eqb Pos.eqb].
  destruct (iph_round ovf ih (body_len (BRaw d)) hb (d ++ pad) Hi L Eh) as [P N0]. unfold ip_parse. rewrite P. cbn [bind body_len].
  replace (skipn (20 + length (ih_options (set_length ih (ip_len ih (nlen d))))) (hb ++ d ++ pad)) with (d ++ pad).
  2:{ symmetry. rewrite <- (skipn_nlen hb (d ++ pad) _ eq_refl) at 2. f_equal. rewrite N0. unfold nlen. cbn [set_length ih_options]. lia. }
  cbn [set_length ih_proto]. destruct (ih_proto ih) eqn:Q; try congruence; cbn [bind fst snd]; destruct h; cbn in Ht; subst; reflexivity.
Qed.
