(** Responses of other protocols, and lengths that are no `usize`. *)
From Coq Require Import String NArith List Bool Lia ZArith ZifyBool ZifyNat ZifyN.
From Verif.Model Require Import Bytes Utf8 Text Http.
From Verif.Spec Require Import HttpSpec.
From Verif.Proofs Require Import BytesFacts TextProofs TableJsonPf HttpLines HttpLaws HttpCodec HttpExact HttpBodies HttpResponse HttpFinal.
Import ListNotations.
Local Open Scope list_scope.
Local Open Scope N_scope.

Lemma body_item_ok c dec s data h b s' rest : codec_body c dec s data = Item (h, b) s' rest -> st_ok c h = true.
Proof.
  unfold codec_body. destruct (cc_bdec s) as [d|]; [|discriminate]. destruct (dec d data); try discriminate. destruct (cc_header s) as [h0|]; [|discriminate].
  destruct (st_ok c h0) eqn:E; [|discriminate]. intros X. injection X as <- <- <- <-. exact E.
Qed.
Lemma decode_item_ok lc bits c s data h b s' rest : codec_decode lc bits c s data = Item (h, b) s' rest -> st_ok c h = true.
Proof.
  unfold codec_decode. destruct (cc_header s); [apply body_item_ok|]. destruct (header_decode _ _ _ _ _); try discriminate; [|apply body_item_ok].
  destruct (st_body c (st_ignore c) _); try discriminate. apply body_item_ok.
Qed.
Lemma eof_item_ok lc bits c h b s' rest : forall fuel s data, codec_eof_loop lc bits fuel c s data = Item (h, b) s' rest -> st_ok c h = true.
Proof.
  induction fuel as [|fuel IH]; intros s data; destruct data as [|x data]; cbn [codec_eof_loop]; try discriminate; try apply body_item_ok.
  destruct (codec_decode lc bits c s (x :: data)) as [[h0 b0] s0 r0|s0 r0| |] eqn:E; try discriminate; [|apply IH].
  intros X. injection X as -> -> -> ->. exact (decode_item_ok _ _ _ _ _ _ _ _ _ E).
Qed.
Lemma feed_item_ok lc bits c h b s' rest : forall pieces s buf, fst (feed (codec_decode lc bits c) s buf pieces) = Item (h, b) s' rest -> st_ok c h = true.
Proof.
  induction pieces as [|p ps IH]; intros s buf; cbn [feed]; [discriminate|].
  destruct (codec_decode lc bits c s (buf ++ p)) as [[h0 b0] s0 r0|s0 r0| |] eqn:E; cbn [fst]; try discriminate; [|apply IH].
  intros X. injection X as -> -> -> ->. exact (decode_item_ok _ _ _ _ _ _ _ _ _ E).
Qed.
Lemma receive_ok lc bits c pieces closed h b : receive lc bits c pieces closed = Response h b -> st_ok c h = true.
Proof.
  unfold receive. destruct (fst (feed (codec_decode lc bits c) codec_new [] pieces)) as [[h0 b0] s0 r0|s0 r0| |] eqn:E; try discriminate.
  - intros X. injection X as -> ->. exact (feed_item_ok _ _ _ _ _ _ _ _ _ _ E).
  - destruct closed; [|discriminate]. unfold codec_decode_eof.
    destruct (codec_eof_loop lc bits (S (length r0)) c s0 r0) as [[h1 b1] s1 r1| | |] eqn:E1; try discriminate.
    intros X. injection X as -> ->. exact (eof_item_ok _ _ _ _ _ _ _ _ _ _ E1).
Qed.
Lemma http_protocol lc bits maxlen maxlines ignore pieces closed h b :
  receive lc bits (http lc bits maxlen maxlines ignore) pieces closed = Response h b ->
  rh_protocol h = lit "HTTP"%string /\ (rh_version h = lit "1.0"%string \/ rh_version h = lit "1.1"%string).
Proof.
  intros R. apply receive_ok in R. cbn [st_ok http] in R. unfold http_ok in R. apply andb_true_iff in R as [P V]. apply beq_spec in P.
  split; [exact P|]. apply orb_true_iff in V as [V|V]; apply beq_spec in V; auto.
Qed.
Lemma rtsp_protocol lc bits maxlen maxlines ignore pieces closed h b :
  receive lc bits (rtsp lc bits maxlen maxlines ignore) pieces closed = Response h b ->
  rh_protocol h = lit "RTSP"%string /\ rh_version h = lit "1.0"%string.
Proof.
  intros R. apply receive_ok in R. cbn [st_ok rtsp] in R. unfold rtsp_ok in R. apply andb_true_iff in R as [P V]. apply beq_spec in P, V. auto.
Qed.

(** ** Numbers that do not fit *)
Lemma parse_over max s n : s <> [] -> digits_val 10 s 0 = Some n -> max < n -> parse_uint 10 max s = None.
Proof.
  intros Hs Hd Hn. destruct s as [|b s]; [congruence|]. pose proof (digits_visible _ _ _ Hd) as F. inversion F as [|? ? [F1 F2] F3]; subst.
  rewrite (parse_uint_plain _ _ _ _ F2), Hd. destruct (N.leb_spec n max); [lia|reflexivity].
Qed.
Lemma length_over bits f v n ignore : hf_value f = Some v -> v <> [] -> digits_val 10 v 0 = Some n -> 2 ^ bits <= n -> length_body bits f ignore = RErr.
Proof.
  intros Ev Hv Hd Hn. unfold length_body. rewrite Ev, (parse_over (usize_max bits) v n Hv Hd); [reflexivity|].
  unfold usize_max. assert (2 ^ bits <> 0) by (apply N.pow_nonzero; discriminate). lia.
Qed.
Lemma rtsp_over lc bits maxlen maxlines ignore c r n ls f value m rest pieces closed :
  let p := lit "RTSP"%string in let v := lit "1.0"%string in
  good_status p v c r n -> header_lines maxlen maxlines (status_line p v c r) ls ->
  newest lc (lit "content-length"%string) (line_fields ls) = Some f -> hf_value f = Some value -> value <> [] -> digits_val 10 value 0 = Some m ->
  2 ^ bits <= m ->
  List.concat pieces = with_ends (status_line p v c r :: ls) ++ [13; 10] ++ rest ->
  receive lc bits (rtsp lc bits maxlen maxlines ignore) pieces closed = Error.
Proof.
  intros p v Hs Hl Hc Ef Hv0 Hd Hn E. pose proof (stream_maxlen _ _ _ _ Hl) as Hm.
  rewrite (receive_reading lc bits (rtsp lc bits maxlen maxlines ignore) Hm (rtsp_inv lc bits maxlen maxlines ignore)).
  unfold codec_decode. cbn [cc_header codec_new cc_hdec st_maxlen st_maxlines st_ignore st_body rtsp].
  rewrite E, (header_whole lc maxlen maxlines p v c r n ls rest Hs Hl). unfold rtsp_body. rewrite last_newest, Hc, (length_over bits f value m ignore Ef Hv0 Hd Hn).
  reflexivity.
Qed.
Lemma http_over lc bits maxlen maxlines ignore v c r n ls f value m rest pieces closed :
  let p := lit "HTTP"%string in
  good_status p v c r n -> header_lines maxlen maxlines (status_line p v c r) ls -> no_body n = false ->
  newest lc (lit "transfer-encoding"%string) (line_fields ls) = None ->
  newest lc (lit "content-length"%string) (line_fields ls) = Some f -> hf_value f = Some value -> value <> [] -> digits_val 10 value 0 = Some m ->
  2 ^ bits <= m ->
  List.concat pieces = with_ends (status_line p v c r :: ls) ++ [13; 10] ++ rest ->
  receive lc bits (http lc bits maxlen maxlines ignore) pieces closed = Error.
Proof.
  intros p Hs Hl Hb Ht Hc Ef Hv0 Hd Hn E. pose proof (stream_maxlen _ _ _ _ Hl) as Hm.
  rewrite (receive_reading lc bits (http lc bits maxlen maxlines ignore) Hm (http_inv lc bits maxlen maxlines ignore Hm)).
  unfold codec_decode. cbn [cc_header codec_new cc_hdec st_maxlen st_maxlines st_ignore st_body http].
  rewrite E, (header_whole lc maxlen maxlines p v c r n ls rest Hs Hl). unfold http_body.
  change (rh_code (header_of lc p v n r (line_fields ls))) with n. fold (no_body n). rewrite Hb.
  rewrite !last_newest, Ht, Hc, (length_over bits f value m ignore Ef Hv0 Hd Hn). reflexivity.
Qed.

(** ** Chunks *)
Lemma step_over bits maxlen ignore body e size ext n r : hexadecimal size n -> 2 ^ bits <= n -> chunk_head maxlen size ext ->
  chunked_step bits maxlen ignore (at_header body e) ((size ++ ext) ++ [13; 10] ++ r) = Fail.
Proof.
  intros Hx Hn [He Hg]. unfold chunked_step, at_header. cbn [cd_state cd_buf cd_body cd_expected]. rewrite (line_good _ _ r Hg).
  rewrite read_size; [|eapply Forall_impl; [|exact (hex_chars _ _ _ (proj2 Hx))]; tauto|exact He].
  destruct Hx as [Hne Hd]. destruct size as [|b size]; [congruence|].
  assert (Hb : b <> 43). { pose proof (hex_chars _ _ _ Hd) as F. inversion F; tauto. }
  rewrite (parse_uint_plain _ _ _ _ Hb), Hd. destruct (N.leb_spec n (usize_max bits)); [|reflexivity].
  unfold usize_max in *. assert (2 ^ bits <> 0) by (apply N.pow_nonzero; discriminate). lia.
Qed.
Lemma chunked_over_run bits maxlen ignore size ext n rest : hexadecimal size n -> 2 ^ bits <= n -> chunk_head maxlen size ext ->
  forall cs, Forall (good_chunk bits maxlen) cs -> forall fuel body e,
  (length (List.concat (map chunk_bytes cs) ++ size ++ ext ++ [13; 10]%N ++ rest) <= fuel)%nat ->
  chunked_loop bits fuel maxlen ignore (at_header body e) (List.concat (map chunk_bytes cs) ++ size ++ ext ++ [13; 10] ++ rest) = Fail.
Proof.
  intros Hx Hn Hh. assert (G0 : good_line maxlen []) by (destruct Hh as [_ Hh]; exact (good_empty _ _ Hh)).
  induction cs as [|c cs IH]; intros Gc fuel body e Hf.
  - cbn [map List.concat] in *. rewrite app_nil_l in *. rewrite app_assoc in *. destruct fuel as [|fuel].
    { rewrite !app_length in Hf. cbn [length] in Hf. lia. }
    rewrite loop_step by (repeat (apply crlf_more || apply app_more)). now rewrite (step_over bits maxlen ignore body e size ext n rest Hx Hn Hh).
  - inversion Gc as [|? ? G1 G2]; subst. destruct G1 as (Hcx & Hd & Hcn & Hc).
    assert (Es : List.concat (map chunk_bytes (c :: cs)) ++ size ++ ext ++ [13; 10] ++ rest =
      (ck_size c ++ ck_ext c) ++ [13; 10] ++ ck_data c ++ [13; 10] ++ List.concat (map chunk_bytes cs) ++ size ++ ext ++ [13; 10] ++ rest).
    { unfold chunk_bytes. cbn [map List.concat]. now rewrite <- !app_assoc. }
    rewrite Es in *. remember (List.concat (map chunk_bytes cs) ++ size ++ ext ++ [13; 10] ++ rest) as more eqn:Em.
    assert (L : (length more + 4 <= length ((ck_size c ++ ck_ext c) ++ crlf ++ ck_data c ++ crlf ++ more))%nat).
    { unfold crlf. rewrite !app_length. cbn [length]. lia. }
    unfold crlf in L. destruct fuel as [|[|[|fuel]]]; [lia|lia|lia|].
    rewrite loop_step by (repeat (apply crlf_more || apply app_more)). rewrite (step_header bits maxlen ignore body e _ _ _ _ Hcx Hcn Hc).
    assert (P : 0 <? nlen (ck_data c) = true). { destruct (ck_data c); [congruence|]. apply N.ltb_lt. unfold nlen. cbn [length]. lia. }
    rewrite P. rewrite loop_step by (repeat (apply crlf_more || apply app_more)). rewrite (step_body bits maxlen ignore body (ck_data c) _ Hd).
    rewrite loop_step by apply crlf_more. rewrite (step_delimiter bits maxlen ignore _ _ G0). rewrite (IH G2) by lia. reflexivity.
Qed.
Lemma chunked_over bits maxlen ignore cs size ext n rest pieces : hexadecimal size n -> 2 ^ bits <= n -> chunk_head maxlen size ext ->
  Forall (good_chunk bits maxlen) cs -> List.concat pieces = List.concat (map chunk_bytes cs) ++ size ++ ext ++ [13; 10] ++ rest ->
  reading (feed (chunked_decode bits maxlen ignore) chunked_new [] pieces) = Fail.
Proof.
  intros Hx Hn Hh Gc E. assert (Hm : 0 < maxlen) by (destruct Hh as [_ Hh]; exact (good_pos _ _ Hh)).
  assert (I : cinv maxlen chunked_new). { split; [now apply buf_nil|discriminate]. }
  rewrite (feed_law (cinv maxlen)); [|apply chunked_law; exact Hm|exact I|now left].
  rewrite E. unfold chunked_decode. exact (chunked_over_run bits maxlen ignore size ext n rest Hx Hn Hh cs Gc _ [] 0 (Nat.le_succ_diag_r _)).
Qed.
