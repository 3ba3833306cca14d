(** Raw packets: the packets of the scans and the answers to them. *)
From Coq Require Import NArith ZArith List Bool Lia ZifyBool ZifyNat ZifyN.
From Verif.Model Require Import Bytes Raw.
From Verif.Spec Require Import RawSpec.
From Verif.Proofs Require Import BytesFacts RawSums RawChecks RawRound RawParse RawGen.
Import ListNotations.
Local Open Scope N_scope.

Lemma no_options : options_ok [].
Proof. repeat split; [constructor|discriminate]. Qed.
Lemma new_header_ok : forall src dst t ttl, src < 2 ^ 32 -> dst < 2 ^ 32 -> ttl < 256 -> protocol_ok t -> iph_ok (iph_new src dst t ttl).
Proof. intros. constructor; cbn [iph_new ih_version ih_dscp ih_ecn ih_ident ih_flags ih_foffset ih_ttl ih_proto ih_src ih_dst ih_options]; try assumption; try reflexivity. apply no_options. Qed.
Lemma bcast_ok : bcast < 2 ^ 48.
Proof. reflexivity. Qed.
Lemma u16_bound : forall n, u16 n < 65536.
Proof. intros. apply N.mod_lt. discriminate. Qed.
Lemma echo_rest : forall id seq, id < 65536 -> seq < 65536 -> id * 2 ^ 16 + seq < 2 ^ 32 /\ (id * 2 ^ 16 + seq) mod 65536 = seq.
Proof. intros id seq A B. change (2 ^ 16) with 65536. change (2 ^ 32) with 4294967296. split; [lia|]. rewrite N.add_comm, N.mod_add by discriminate. now apply N.mod_small. Qed.
Lemma echo_ok : forall id seq d, id < 65536 -> seq < 65536 -> wf_bytes d -> icmp_ok (echo_request id seq d).
Proof. intros id seq d A B W. destruct (echo_rest id seq A B). constructor; cbn [echo_request ic_type ic_code ic_rest ic_body]; try assumption; [split; reflexivity|reflexivity]. Qed.
Lemma arp_request_ok : forall d dst, device_ok d -> dst < 2 ^ 32 -> packet_ok (arp_request d dst).
Proof.
  intros d dst (M & A & _) D. split; cbn [arp_request packet_arp pk_header pk_body].
  - constructor; cbn [eh_src eh_dst eh_type]; [assumption|apply bcast_ok|reflexivity].
  - split; [|reflexivity]. constructor; cbn [arp_new ar_htype ar_ptype ar_hlen ar_plen ar_oper ar_sha ar_spa ar_tha ar_tpa]; rewrite ?nlen_to_be; try reflexivity.
Qed.
Lemma icmp_request_ok : forall d dst, device_ok d -> dst < 2 ^ 32 -> packet_ok (icmp_request d dst).
Proof.
  intros d dst (M & A & _) D. split; cbn [icmp_request packet_ip pk_header pk_body].
  - constructor; cbn [eh_src eh_dst eh_type]; [assumption|apply bcast_ok|reflexivity].
  - split; [apply new_header_ok; try assumption; [reflexivity|split; reflexivity]|]. split; [|reflexivity]. split; [reflexivity|]. split; [|reflexivity].
    apply echo_ok; [apply u16_bound|apply u16_bound|constructor].
Qed.
Lemma tcp_request_ok : forall d h p, device_ok d -> fst h < 2 ^ 48 -> snd h < 2 ^ 32 -> p < 65536 -> packet_ok (tcp_request d h p).
Proof.
  intros d h p (M & A & _) D1 D2 P. split; cbn [tcp_request packet_ip pk_header pk_body].
  - constructor; cbn [eh_src eh_dst eh_type]; [assumption|assumption|reflexivity].
  - split; [apply new_header_ok; try assumption; [reflexivity|split; reflexivity]|]. split; [|reflexivity]. split; [reflexivity|]. split; [|reflexivity].
    constructor; cbn [tcp_new tp_sport tp_dport tp_seq tp_ack tp_flags tp_wsize tp_uptr tp_options tp_data]; try assumption; try reflexivity; [apply no_options|constructor].
Qed.
Lemma echo_verifies : forall dst, verifies (icmp_bytes (echo_request (u16 (dst / 2 ^ 16)) (u16 (N.land dst 255)) [])).
Proof.
  intros dst. apply icmp_verifies.
  - apply echo_ok; [apply u16_bound|apply u16_bound|constructor].
  - reflexivity.
  - cbn [echo_request ic_rest]. destruct (echo_rest (u16 (dst / 2 ^ 16)) (u16 (N.land dst 255)) (u16_bound _) (u16_bound _)) as [_ ->].
    rewrite land_255. pose proof (N.mod_lt (dst mod 65536) 256 ltac:(discriminate)). unfold u16. change (2 ^ 16) with 65536. rewrite N.mod_small by lia. assumption.
Qed.

(** The parts of an IPv4 frame *)
Lemma frame_parts : forall ovf e h b bs, packet_bytes ovf {| pk_header := e; pk_body := EIp h b |} = ROk bs ->
  exists hb bb, iph_bytes ovf h (body_len b) = ROk hb /\ body_bytes ovf h b = ROk bb /\ bs = eth_bytes e ++ hb ++ bb.
Proof.
  intros ovf e h b bs E. unfold packet_bytes in E. cbn [pk_header pk_body] in E. unfold ip_bytes in E.
  destruct (iph_bytes ovf h (body_len b)) as [hb| |]; cbn [bind] in E; try discriminate E. destruct (body_bytes ovf h b) as [bb| |]; cbn [bind] in E; try discriminate E.
  apply ROk_inj in E. exists hb, bb. repeat split. now symmetry.
Qed.

(** ** Answers *)
Lemma arp_answer : forall ovf e sha spa tha tpa bs, eth_ok e -> eh_type e = 2054 -> sha < 2 ^ 48 -> spa < 2 ^ 32 ->
  packet_bytes ovf {| pk_header := e; pk_body := EArp (arp_new ArpReply sha spa tha tpa) |} = ROk bs -> forall pad,
  exists p, packet_parse (bs ++ pad) = ROk p /\ arp_hosts [p] = ROk [(sha, spa)].
Proof.
  intros ovf e sha spa tha tpa bs Oe T A B E pad. unfold packet_bytes in E. cbn [pk_header pk_body bind] in E. apply ROk_inj in E. subst bs. rewrite <- app_assoc.
  unfold packet_parse. rewrite nlen_app, eth_len. match goal with |- context [?n <? 14] => destruct (N.ltb_spec n 14) as [Y|_]; [lia|] end.
  destruct (eth_fields e (arp_bytes (arp_new ArpReply sha spa tha tpa) ++ pad) Oe) as (-> & -> & -> & ->). cbn [eh_type]. rewrite T. cbn [N.eqb Pos.eqb]. rewrite arp_round.
  - cbn [bind]. eexists. split; [reflexivity|]. cbn [arp_hosts pk_body arp_new ar_sha ar_spa]. unfold from_slice. rewrite !nlen_to_be. cbn [N.of_nat Pos.of_succ_nat Pos.succ N.eqb Pos.eqb bind].
    rewrite !of_be_to_be_small by assumption. reflexivity.
  - constructor; cbn [arp_new ar_htype ar_ptype ar_hlen ar_plen ar_oper ar_sha ar_spa ar_tha ar_tpa]; rewrite ?nlen_to_be; try reflexivity.
Qed.
Lemma tcp_answer : forall ovf e h t bs, packet_ok {| pk_header := e; pk_body := EIp h (BTcp t) |} ->
  packet_bytes ovf {| pk_header := e; pk_body := EIp h (BTcp t) |} = ROk bs ->
  exists p, packet_parse bs = ROk p /\ tcp_services [p] = [(eh_src e, ih_src h, tp_sport t)].
Proof. intros ovf e h t bs O E. rewrite (packet_round ovf _ bs O E). eexists. split; [reflexivity|]. reflexivity. Qed.
Lemma icmp_answer : forall ovf d e h b bs, packet_ok {| pk_header := e; pk_body := EIp h b |} ->
  packet_bytes ovf {| pk_header := e; pk_body := EIp h b |} = ROk bs ->
  exists p, packet_parse bs = ROk p /\ icmp_hosts d [p] = if N.land (ih_src h) (dv_mask d) =? network d then [(eh_src e, ih_src h)] else [].
Proof.
  intros ovf d e h b bs O E. rewrite (packet_round ovf _ bs O E). eexists. split; [reflexivity|].
  destruct b; cbn; unfold network; destruct (N.land (ih_src h) (dv_mask d) =? N.land (dv_ip d) (dv_mask d)); reflexivity.
Qed.
