(** Memory used for a response. *)
From Coq Require Import String NArith List Bool Lia.
From Coq Require Import ZArith ZifyBool ZifyNat ZifyN.
From Verif.Model Require Import Bytes Utf8 Text Http Memory.
From Verif.Spec Require Import HttpSpec.
From Verif.Proofs Require Import BytesFacts TextProofs HttpLines HttpLaws HttpCodec HttpExact HttpBodies HttpResponse HttpFinal.
Import ListNotations.
Local Open Scope N_scope.

(** ** Lengths *)
Lemma nlen_le {A} (a b : list A) : (length a <= length b)%nat -> nlen a <= nlen b.
Proof. unfold nlen. lia. Qed.
Lemma trim_start_le s : (length (trim_start s) <= length s)%nat.
Proof. apply strip_length. intros w. apply white_nonempty. Qed.
Lemma trim_le s : (length (trim s) <= length s)%nat.
Proof.
  unfold trim, trim_end. rewrite rev_length. etransitivity; [apply strip_length|rewrite rev_length; apply trim_start_le].
  intros w H ->. apply in_map_iff in H as (x & E & H). apply (white_nonempty x H). apply (f_equal (@rev N)) in E. now rewrite rev_involutive in E.
Qed.
Lemma read_until_le c s : (length (fst (read_until c s)) + length (snd (read_until c s)) = length s)%nat.
Proof.
  induction s as [|b s IH]; cbn [read_until]; [reflexivity|]. destruct (b =? c); [reflexivity|].
  destruct (read_until c s). cbn [fst snd length] in *. lia.
Qed.
Lemma read_white_le s : (length (fst (read_until_white s)) + length (snd (read_until_white s)) = length s)%nat.
Proof.
  induction s as [|b s IH]; cbn [read_until_white]; [reflexivity|]. destruct (white_first (b :: s)); [reflexivity|].
  destruct (read_until_white s). cbn [fst snd length] in *. lia.
Qed.
Lemma read_word_le s : (length (fst (read_word s)) + length (snd (read_word s)) <= length s)%nat.
Proof. unfold read_word, skip_white. rewrite read_white_le. apply trim_start_le. Qed.
Lemma match_char_le c s r : match_char c s = Some r -> (length r < length s)%nat.
Proof. destruct s as [|b s]; cbn [match_char]; [discriminate|]. destruct (b =? c); [|discriminate]. intros [= ->]. cbn [length]. lia. Qed.

Lemma status_size s h : status_parse s = Some h -> header_size h <= nlen s /\ f_list (rh_fields h) = [].
Proof.
  unfold status_parse. pose proof (read_until_le 47 s) as L1. destruct (read_until 47 s) as [p r1]. cbn [fst snd] in L1.
  destruct (match_char 47 r1) as [r2|] eqn:E; [|discriminate]. pose proof (match_char_le _ _ _ E) as L2.
  pose proof (read_word_le r2) as L3. destruct (read_word r2) as [v r3]. cbn [fst snd] in L3.
  pose proof (read_word_le r3) as L4. destruct (read_word r3) as [c r4]. cbn [fst snd] in L4.
  destruct (parse_uint 10 65535 c) as [n|]; [|discriminate]. intros [= <-]. pose proof (trim_le r4) as L5.
  split; [|reflexivity]. unfold header_size. cbn [rh_protocol rh_version rh_line rh_fields fields_new f_list fields_size fold_right]. unfold nlen. lia.
Qed.
Lemma field_parse_size s : field_size (field_parse s) <= nlen s.
Proof.
  unfold field_parse, field_size. destruct (find_char 58 s) as [i|]; cbn [hf_name hf_value].
  - pose proof (trim_le (firstn i s)) as L1. pose proof (trim_le (skipn (S i) s)) as L2. rewrite firstn_length in L1. rewrite skipn_length in L2. unfold nlen. lia.
  - pose proof (trim_le s). unfold nlen. lia.
Qed.
Lemma fields_size_app a b : fields_size (a ++ b) = fields_size a + fields_size b.
Proof. induction a as [|f a IH]; cbn [app fields_size fold_right]; [reflexivity|]. unfold fields_size in *. rewrite IH. lia. Qed.
Lemma header_add_size lc f h : header_size (header_add lc f h) <= header_size h + nlen f.
Proof.
  unfold header_add, header_size. cbn [rh_protocol rh_version rh_line rh_fields fields_add f_list]. rewrite fields_size_app.
  cbn [fields_size fold_right]. pose proof (field_parse_size f). lia.
Qed.
Lemma header_add_count lc f h : nlen (f_list (rh_fields (header_add lc f h))) = nlen (f_list (rh_fields h)) + 1.
Proof. unfold header_add. cbn [rh_fields fields_add f_list]. unfold nlen. rewrite app_length. cbn [length]. lia. Qed.

(** ** Headers *)
Definition header_ok (maxlen lines : N) (h : rheader) : Prop := header_size h <= maxlen * lines /\ nlen (f_list (rh_fields h)) <= lines.
Definition hmem (maxlen maxlines : N) (s : hdec) : Prop :=
  buf_ok maxlen (hd_buf s) /\ hd_lines s <= maxlines /\ option_size (hd_header s) + nlen (hd_field s) <= maxlen * hd_lines s /\
  match hd_header s with
  | None => hd_field s = []
  | Some h => nlen (f_list (rh_fields h)) + (match hd_field s with [] => 0 | _ => 1 end) <= hd_lines s
  end.
Lemma hmem_new maxlen maxlines : 0 < maxlen -> hmem maxlen maxlines hdec_new.
Proof. intros H. split; [now apply buf_nil|]. cbn. change (nlen []) with 0. split; [lia|]. split; [lia|reflexivity]. Qed.

Lemma line_item max buf data l s r : buf_ok max buf -> line_decode crlf max buf data = Item l s r -> s = [] /\ nlen l + 2 <= max.
Proof.
  intros I H. split; [now apply (line_shorter max buf data l s r)|]. rewrite (line_decode_cut _ _ _ I) in H.
  destruct (cut_line max (buf ++ data)) as [l' r'| |] eqn:E; try discriminate. injection H as -> <- ->. now destruct (cut_rest _ _ _ _ E) as (_ & _ & G & _).
Qed.

Lemma header_mem lc maxlen maxlines fuel : 0 < maxlen -> forall s data, hmem maxlen maxlines s ->
  match header_loop lc fuel maxlen maxlines s data with
  | Item h s' r => header_ok maxlen maxlines h /\ s' = hdec_new
  | More s' r => r = [] /\ hmem maxlen maxlines s'
  | _ => True
  end.
Proof.
  intros Hm. induction fuel as [|f IH]; intros s data (I1 & I2 & I3 & I4); cbn [header_loop]; [exact I|].
  destruct (line_decode crlf maxlen (hd_buf s) data) as [line b r|b r| |] eqn:E; try exact I.
  2:{ destruct (line_more _ _ _ _ _ I1 E) as (-> & B & _). split; [reflexivity|]. now split. }
  destruct (line_item _ _ _ _ _ _ I1 E) as (-> & Hl). destruct (N.ltb_spec maxlines (hd_lines s + 1)) as [|Hn]; [exact I|].
  assert (Hmul : maxlen * (hd_lines s + 1) = maxlen * hd_lines s + maxlen) by lia.
  destruct (hd_header s) as [h|] eqn:Eh.
  - set (add := negb (white_first line) && match hd_field s with [] => false | _ => true end).
    set (h' := if add then header_add lc (hd_field s) h else h).
    assert (S1 : header_size h' + nlen (if add then [] else hd_field s) <= maxlen * hd_lines s).
    { subst h'. cbn [option_size] in I3. destruct add; [|exact I3]. pose proof (header_add_size lc (hd_field s) h). change (nlen []) with 0. lia. }
    assert (S2 : nlen (f_list (rh_fields h')) + (match (if add then [] else hd_field s) with [] => 0 | _ => 1 end) <= hd_lines s).
    { subst h' add. destruct (hd_field s) as [|x y]; [rewrite andb_false_r; exact I4|]. destruct (white_first line); cbn [negb andb]; [exact I4|].
      rewrite header_add_count, N.add_0_r. exact I4. }
    assert (S3 : nlen ((if add then [] else hd_field s) ++ line) = nlen (if add then [] else hd_field s) + nlen line) by (unfold nlen; rewrite app_length; lia).
    destruct line as [|x line].
    + split; [|reflexivity]. split.
      * assert (maxlen * hd_lines s <= maxlen * maxlines) by (apply N.mul_le_mono_l; exact I2). lia.
      * lia.
    + apply IH. split; [now apply buf_nil|]. cbn [hd_lines hd_header hd_field option_size]. split; [exact Hn|]. split; [lia|].
      destruct (((if add then [] else hd_field s) ++ x :: line)); [lia|].
      destruct (if add then [] else hd_field s); lia.
  - destruct (status_parse line) as [h|] eqn:Es; [|exact I]. destruct (status_size _ _ Es) as (S1 & S2). apply IH.
    split; [now apply buf_nil|]. cbn [hd_lines hd_header hd_field option_size]. rewrite I4 in *. change (nlen []) with 0 in *. split; [exact Hn|].
    split; [lia|]. rewrite S2. change (nlen []) with 0. lia.
Qed.

(** ** Bodies *)
Lemma trailer_body maxlen fuel : forall s data s' r, trailer_loop fuel maxlen s data = More s' r -> cd_body s' = cd_body s.
Proof.
  induction fuel as [|f IH]; intros s data s' r; cbn [trailer_loop]; [discriminate|]. destruct (line_decode _ _ _ _) as [[|x l] b r'|b r'| |]; try discriminate.
  - intros H. now apply IH in H.
  - now intros [= <- _].
Qed.
Lemma trailer_given maxlen fuel : forall s data b s' r, trailer_loop fuel maxlen s data = Item b s' r -> b = cd_body s.
Proof.
  induction fuel as [|f IH]; intros s data b0 s' r; cbn [trailer_loop]; [discriminate|]. destruct (line_decode _ _ _ _) as [[|x l] b r'|b r'| |]; try discriminate.
  - now intros [= <- _ _].
  - intros H. now apply IH in H.
Qed.
Lemma step_body bits maxlen s data : cd_body s = [] ->
  match chunked_step bits maxlen true s data with
  | More s' _ => cd_body s' = []
  | Item b _ _ => b = []
  | _ => True
  end.
Proof.
  intros H. unfold chunked_step. destruct (cd_state s).
  - destruct (line_decode _ _ _ _) as [l b r|b r| |]; try exact I; [|exact H]. destruct (parse_uint _ _ _); [exact H|exact I].
  - exact H.
  - destruct (line_decode _ _ _ _) as [l b r|b r| |]; try exact I; exact H.
  - destruct (trailer_loop _ _ _ _) eqn:E; try exact I.
    + apply trailer_given in E. now rewrite E.
    + apply trailer_body in E. now rewrite E.
  - exact I.
Qed.
Lemma chunked_ignored bits maxlen fuel : forall s data, cd_body s = [] ->
  match chunked_loop bits fuel maxlen true s data with
  | More s' _ => cd_body s' = []
  | Item b _ _ => b = []
  | _ => True
  end.
Proof.
  induction fuel as [|f IH]; intros s [|x data] H; cbn [chunked_loop]; try exact H; [exact I|].
  pose proof (step_body bits maxlen s (x :: data) H) as B. destruct (chunked_step _ _ _ _ _); try exact B. now apply IH.
Qed.

(** The body decoders of a request that ignores the body. *)
Definition empty_body (d : bdec) : Prop :=
  match d with DSimple b => b = [] | DFixed d => fd_body d = Some [] | DChunked d => cd_body d = [] end.
Lemma body_ignored bits maxlen d data : empty_body d ->
  match body_decode bits maxlen true d data with
  | More d' _ => empty_body d'
  | Item b _ _ => b = []
  | _ => True
  end.
Proof.
  destruct d as [b|d|d]; cbn [body_decode empty_body]; intros H.
  - exact H.
  - unfold fixed_decode. rewrite H. destruct (0 <? _); reflexivity.
  - pose proof (chunked_ignored bits maxlen (S (length data)) d data H) as B. unfold chunked_decode. destruct (chunked_loop _ _ _ _ _ _); exact B.
Qed.
Lemma empty_room d : empty_body d -> bdec_room true d = 0.
Proof. destruct d as [b|d|d]; cbn [empty_body bdec_room]; intros ->; reflexivity. Qed.
Lemma buffer_small c d : 0 < st_maxlen c -> dinv c d -> bdec_buffer d < st_maxlen c.
Proof. intros Hm. destruct d as [b|d|d]; cbn [bdec_buffer dinv]; try (intros; lia). intros ((_ & B) & _). exact B. Qed.

(** ** Codecs *)
Section Codec.
Variable lc : bytes -> bytes.
Variable bits : N.
Variable c : settings.
Hypothesis Hmax : 0 < st_maxlen c.
Hypothesis Hbody : forall h d, st_body c (st_ignore c) h = ROk d -> dinv c d /\ (st_ignore c = true -> empty_body d).

Definition cmem (s : codec) : Prop :=
  match cc_header s with
  | None => cc_bdec s = None /\ hmem (st_maxlen c) (st_maxlines c) (cc_hdec s)
  | Some h => cc_hdec s = hdec_new /\ header_ok (st_maxlen c) (st_maxlines c) h /\
              exists d, cc_bdec s = Some d /\ dinv c d /\ (st_ignore c = true -> empty_body d)
  end.
Definition given (h : rheader) (b : bytes) : Prop :=
  header_ok (st_maxlen c) (st_maxlines c) h /\ (st_ignore c = true -> b = []).

Lemma codec_body_mem s x : cmem s -> cc_header s <> None ->
  match codec_body c (body_decode bits (st_maxlen c) (st_ignore c)) s x with
  | More s' r => r = [] /\ cmem s' /\ cc_header s' = cc_header s
  | Item (h, b) _ _ => given h b
  | _ => True
  end.
Proof.
  unfold cmem. destruct (cc_header s) as [h|] eqn:Eh; [intros (E1 & E2 & d & Ed & I1 & I2) _|congruence].
  unfold codec_body. rewrite Ed, Eh. pose proof (body_law bits c Hmax d x [] I1) as L.
  assert (B : st_ignore c = true -> match body_decode bits (st_maxlen c) (st_ignore c) d x with More d' _ => empty_body d' | Item b _ _ => b = [] | _ => True end).
  { intros T. rewrite T. apply body_ignored. auto. }
  destruct (body_decode bits (st_maxlen c) (st_ignore c) d x) as [b d' r|d' r| |]; try exact I.
  - destruct (st_ok c h); [|exact I]. split; [exact E2|exact B].
  - destruct L as (-> & L & _). split; [reflexivity|]. cbn [cc_header cc_hdec cc_bdec]. split; [|reflexivity]. split; [exact E1|]. split; [exact E2|]. exists d'. auto.
Qed.
Lemma codec_mem data :
  match codec_decode lc bits c codec_new data with
  | More s r => r = [] /\ cmem s
  | Item (h, b) _ _ => given h b
  | _ => True
  end.
Proof.
  unfold codec_decode. cbn [cc_header codec_new cc_hdec cc_bdec]. unfold header_decode.
  pose proof (header_mem lc (st_maxlen c) (st_maxlines c) (S (length data)) Hmax hdec_new data (hmem_new _ _ Hmax)) as H.
  destruct (header_loop lc (S (length data)) (st_maxlen c) (st_maxlines c) hdec_new data) as [h hd r|hd r| |]; try exact I.
  - destruct H as (H1 & ->). destruct (st_body c (st_ignore c) h) as [d| |] eqn:Eb; try exact I. destruct (Hbody _ _ Eb) as (B1 & B2).
    pose proof (codec_body_mem {| cc_hdec := hdec_new; cc_header := Some h; cc_bdec := Some d |} r) as B.
    destruct (codec_body c _ _ r) as [[h' b] s' r'|s' r'| |]; try exact I.
    + apply B; [|discriminate]. cbn. eauto 10.
    + destruct B as (-> & B & _); [cbn; eauto 10|discriminate|]. auto.
  - destruct H as (-> & H). cbn [codec_body cc_bdec]. split; [reflexivity|]. split; [reflexivity|exact H].
Qed.
Lemma feed_mem pieces : reading (feed (codec_decode lc bits c) codec_new [] pieces) = codec_decode lc bits c codec_new (List.concat pieces).
Proof.
  assert (Hb : forall h d, st_body c (st_ignore c) h = ROk d -> dinv c d) by (intros h d E; apply (Hbody _ _ E)).
  exact (feed_law _ _ (codec_law lc bits c Hmax Hb) pieces codec_new (kinv_new c Hmax) (or_introl (codec_empty lc bits c Hmax))).
Qed.
Lemma reading_bounded pieces s rest ps : feed (codec_decode lc bits c) codec_new [] pieces = (More s rest, ps) ->
  rest = [] /\ codec_size s < st_maxlen c * (st_maxlines c + 1) /\ (st_ignore c = true -> codec_room true s = 0).
Proof.
  intros E. pose proof (feed_mem pieces) as F. rewrite E in F. cbn [reading] in F.
  pose proof (codec_mem (List.concat pieces)) as M. rewrite <- F in M. destruct M as (-> & M). split; [reflexivity|].
  unfold codec_size, codec_room. unfold cmem in M. destruct (cc_header s) as [h|]; cbn [option_size].
  - destruct M as (-> & (H1 & _) & d & -> & I1 & I2). change (hdec_size hdec_new) with 0. pose proof (buffer_small c d Hmax I1).
    split; [lia|]. intros T. apply empty_room. auto.
  - destruct M as (-> & (H1 & H2) & H3 & H4 & _). split; [|reflexivity]. unfold hdec_size.
    assert (st_maxlen c * hd_lines (cc_hdec s) <= st_maxlen c * st_maxlines c) by (apply N.mul_le_mono_l; exact H3).
    destruct (hd_header (cc_hdec s)); cbn [option_size] in *; lia.
Qed.
End Codec.

(** ** HTTP and RTSP *)
Lemma fixed_body_mem bits c n d : fixed_body bits n (st_ignore c) = ROk d -> dinv c d /\ (st_ignore c = true -> empty_body d).
Proof.
  unfold fixed_body, fixed_new. destruct (_ && _); [discriminate|]. intros [= <-]. split; [discriminate|reflexivity].
Qed.
Lemma length_body_mem bits c f d : length_body bits f (st_ignore c) = ROk d -> dinv c d /\ (st_ignore c = true -> empty_body d).
Proof. unfold length_body. destruct (hf_value f); [|discriminate]. destruct (parse_uint _ _ _); [apply fixed_body_mem|discriminate]. Qed.
Lemma http_mem lc bits maxlen maxlines ignore h d : 0 < maxlen -> st_body (http lc bits maxlen maxlines ignore) ignore h = ROk d ->
  dinv (http lc bits maxlen maxlines ignore) d /\ (ignore = true -> empty_body d).
Proof.
  intros Hm. cbn [http st_body]. unfold http_body. pose proof (fixed_body_mem bits (http lc bits maxlen maxlines ignore)) as F.
  pose proof (length_body_mem bits (http lc bits maxlen maxlines ignore)) as L. cbn [st_ignore http] in F, L.
  destruct (_ || _ || _); [apply F|]. destruct (last_field _ _ _).
  - destruct (beq _ _); intros [= <-]; (split; [|reflexivity]); [|exact I]. split; [now apply buf_nil|discriminate].
  - destruct (last_field _ _ _); [apply L|]. intros [= <-]. split; [exact I|reflexivity].
Qed.
Lemma rtsp_mem lc bits maxlen maxlines ignore h d : st_body (rtsp lc bits maxlen maxlines ignore) ignore h = ROk d ->
  dinv (rtsp lc bits maxlen maxlines ignore) d /\ (ignore = true -> empty_body d).
Proof.
  cbn [rtsp st_body]. unfold rtsp_body. destruct (last_field _ _ _); [apply (length_body_mem bits (rtsp lc bits maxlen maxlines ignore))|
  apply (fixed_body_mem bits (rtsp lc bits maxlen maxlines ignore))].
Qed.

Lemma http_bounded lc bits maxlen maxlines ignore pieces s rest ps : 0 < maxlen ->
  feed (codec_decode lc bits (http lc bits maxlen maxlines ignore)) codec_new [] pieces = (More s rest, ps) ->
  rest = [] /\ codec_size s < maxlen * (maxlines + 1) /\ (ignore = true -> codec_room true s = 0).
Proof.
  intros Hm. apply (reading_bounded lc bits (http lc bits maxlen maxlines ignore) Hm). intros h d. now apply http_mem.
Qed.
Lemma rtsp_bounded lc bits maxlen maxlines ignore pieces s rest ps : 0 < maxlen ->
  feed (codec_decode lc bits (rtsp lc bits maxlen maxlines ignore)) codec_new [] pieces = (More s rest, ps) ->
  rest = [] /\ codec_size s < maxlen * (maxlines + 1) /\ (ignore = true -> codec_room true s = 0).
Proof.
  intros Hm. apply (reading_bounded lc bits (rtsp lc bits maxlen maxlines ignore) Hm). intros h d. apply rtsp_mem.
Qed.

(** ** Responses given *)
Section Given.
Variable lc : bytes -> bytes.
Variable bits : N.
Variable c : settings.
Hypothesis Hmax : 0 < st_maxlen c.
Hypothesis Hbody : forall h d, st_body c (st_ignore c) h = ROk d -> dinv c d /\ (st_ignore c = true -> empty_body d).
Lemma body_eof_ignored d : empty_body d -> forall b d' r, body_decode_eof bits (st_maxlen c) true d [] = Item b d' r -> b = [].
Proof.
  destruct d as [b|d|d]; cbn [body_decode_eof empty_body]; intros H b0 d' r.
  - cbn [simple_decode_eof lift]. now intros [= <- _ _].
  - unfold fixed_decode_eof, fixed_decode. rewrite H. destruct (0 <? _); cbn [fd_body lift]; now intros [= <- _ _].
  - unfold chunked_decode_eof, chunked_decode. rewrite chunked_nil. destruct (cd_state d); cbn [lift]; try discriminate; intros [= <- _ _]; exact H.
Qed.
Lemma response_bounded pieces closed h b : receive lc bits c pieces closed = Response h b ->
  header_size h <= st_maxlen c * st_maxlines c /\ nlen (f_list (rh_fields h)) <= st_maxlines c /\ (st_ignore c = true -> b = []).
Proof.
  assert (Hb : forall h d, st_body c (st_ignore c) h = ROk d -> dinv c d) by (intros h0 d E; apply (Hbody _ _ E)).
  rewrite (receive_reading lc bits c Hmax Hb). unfold outcome_of. pose proof (codec_mem lc bits c Hmax Hbody (List.concat pieces)) as M.
  destruct (codec_decode lc bits c codec_new (List.concat pieces)) as [[h' b'] s r|s r| |]; try discriminate.
  - intros [= <- <-]. destruct M as ((M1 & M2) & M3). auto.
  - destruct closed; [|discriminate]. destruct M as (-> & M). unfold codec_decode_eof. cbn [length codec_eof_loop]. unfold codec_body.
    unfold cmem in M. destruct (cc_header s) as [h0|].
    + destruct M as (_ & (M1 & M2) & d & -> & _ & M3). destruct (body_decode_eof _ _ _ d []) as [b0 d' r'|d' r'| |] eqn:E; try discriminate.
      destruct (st_ok c h0); [|discriminate]. intros [= <- <-]. split; [exact M1|]. split; [exact M2|]. intros T. rewrite T in E.
      exact (body_eof_ignored d (M3 T) _ _ _ E).
    + destruct M as (-> & _). discriminate.
Qed.
End Given.
Lemma http_given lc bits maxlen maxlines ignore pieces closed h b : 0 < maxlen ->
  receive lc bits (http lc bits maxlen maxlines ignore) pieces closed = Response h b ->
  header_size h <= maxlen * maxlines /\ nlen (f_list (rh_fields h)) <= maxlines /\ (ignore = true -> b = []).
Proof. intros Hm. apply (response_bounded lc bits (http lc bits maxlen maxlines ignore) Hm). intros h' d. now apply http_mem. Qed.
Lemma rtsp_given lc bits maxlen maxlines ignore pieces closed h b : 0 < maxlen ->
  receive lc bits (rtsp lc bits maxlen maxlines ignore) pieces closed = Response h b ->
  header_size h <= maxlen * maxlines /\ nlen (f_list (rh_fields h)) <= maxlines /\ (ignore = true -> b = []).
Proof. intros Hm. apply (response_bounded lc bits (rtsp lc bits maxlen maxlines ignore) Hm). intros h' d. apply rtsp_mem. Qed.

(** ** The room announced *)
Lemma rtsp_reserves lc bits maxlen maxlines c r n ls f value m pieces :
  let p := lit "RTSP"%string in let v := lit "1.0"%string in
  good_status p v c r n -> header_lines maxlen maxlines (status_line p v c r) ls ->
  newest lc (lit "content-length"%string) (line_fields ls) = Some f -> hf_value f = Some value -> value <> [] -> digits_val 10 value 0 = Some m ->
  0 < m < 2 ^ (bits - 1) ->
  List.concat pieces = with_ends (status_line p v c r :: ls) ++ [13; 10] ->
  exists s ps, feed (codec_decode lc bits (rtsp lc bits maxlen maxlines false)) codec_new [] pieces = (More s [], ps) /\ codec_room false s = m.
Proof.
  intros p v Hs Hl Hc Ef Hv0 Hd Hn E. pose proof (stream_maxlen _ _ _ _ Hl) as Hm.
  pose proof (feed_mem lc bits (rtsp lc bits maxlen maxlines false) Hm (fun h d => rtsp_mem lc bits maxlen maxlines false h d) pieces) as F.
  rewrite E in F. unfold codec_decode in F at 2. cbn [cc_header codec_new cc_hdec st_maxlen st_maxlines st_ignore st_body rtsp] in F.
  rewrite <- (app_nil_r [13; 10]) in F.
  rewrite (header_whole lc maxlen maxlines p v c r n ls [] Hs Hl) in F. unfold rtsp_body in F. rewrite last_newest, Hc in F.
  assert (Hp : 2 ^ (bits - 1) <= 2 ^ bits) by (apply N.pow_le_mono_r; [discriminate|lia]).
  assert (Hb : length_body bits f false = ROk (DFixed {| fd_body := Some []; fd_expected := m |})).
  { unfold length_body. rewrite Ef, (parse_decimal (usize_max bits) value m Hv0 Hd) by (unfold usize_max; lia).
    unfold fixed_body, fixed_new. cbn [negb andb]. unfold isize_max. destruct (N.ltb_spec (2 ^ (bits - 1) - 1) m); [lia|reflexivity]. }
  rewrite Hb in F. cbn [codec_body cc_bdec body_decode] in F. unfold fixed_decode in F. cbn [fd_body fd_expected] in F.
  change (nlen []) with 0 in F. destruct (N.ltb_spec m 0); [lia|]. rewrite N.sub_0_r in F. destruct (N.ltb_spec 0 m); [|lia].
  cbn [lift N.to_nat firstn skipn app cc_hdec cc_header] in F.
  destruct (feed _ codec_new [] pieces) as [[a s r'|s r'| |] ps]; cbn [reading] in F; try discriminate.
  injection F as -> ->. eexists. exists ps. split; [reflexivity|]. cbn. lia.
Qed.
(** Never more than announced. *)
Lemma fixed_room ignore d data b e : fd_body d = Some b ->
  fixed_decode ignore d data = More e [] -> bdec_room ignore (DFixed e) = bdec_room ignore (DFixed d).
Proof.
  intros H. unfold fixed_decode. rewrite H. set (take := if fd_expected d <? nlen data then fd_expected d else nlen data).
  destruct (N.ltb_spec 0 (fd_expected d - take)) as [L|L]; [|discriminate]. intros [= <- _]. unfold bdec_room. cbn [fd_body fd_expected]. rewrite H.
  destruct ignore; [reflexivity|]. unfold nlen at 1. rewrite app_length, firstn_length. fold (nlen b).
  subst take. destruct (N.ltb_spec (fd_expected d) (nlen data)) as [X|X]; [lia|]. unfold nlen in *. lia.
Qed.
Lemma rtsp_room lc bits maxlen maxlines pieces s rest ps : 0 < maxlen ->
  feed (codec_decode lc bits (rtsp lc bits maxlen maxlines false)) codec_new [] pieces = (More s rest, ps) ->
  codec_room false s = 0 \/
  exists h f value m, cc_header s = Some h /\ last_field lc (lit "content-length"%string) h = Some f /\ hf_value f = Some value /\
    parse_uint 10 (usize_max bits) value = Some m /\ codec_room false s = m /\ m < 2 ^ (bits - 1).
Proof.
  intros Hm E. pose proof (feed_mem lc bits (rtsp lc bits maxlen maxlines false) Hm (fun h d => rtsp_mem lc bits maxlen maxlines false h d) pieces) as F.
  rewrite E in F. cbn [reading] in F. unfold codec_decode in F. cbn [cc_header codec_new cc_hdec cc_bdec st_maxlen st_maxlines st_ignore st_body rtsp] in F.
  destruct (header_decode lc maxlen maxlines hdec_new (List.concat pieces)) as [h hd r|hd r| |]; try discriminate.
  2:{ cbn [codec_body cc_bdec] in F. injection F as -> _. now left. }
  assert (P : forall n d, fixed_body bits n false = ROk d -> n < 2 ^ (bits - 1) /\ d = DFixed {| fd_body := Some []; fd_expected := n |}).
  { intros n d. unfold fixed_body, fixed_new. cbn [negb andb]. assert (2 ^ (bits - 1) <> 0) by (apply N.pow_nonzero; discriminate). unfold isize_max.
    destruct (N.ltb_spec (2 ^ (bits - 1) - 1) n); [discriminate|]. intros [= <-]. split; [lia|reflexivity]. }
  assert (Q : forall n, codec_body (rtsp lc bits maxlen maxlines false) (body_decode bits maxlen false)
            {| cc_hdec := hd; cc_header := Some h; cc_bdec := Some (DFixed {| fd_body := Some []; fd_expected := n |}) |} r = More s rest ->
            codec_room false s = n /\ cc_header s = Some h).
  { intros n. cbn [codec_body cc_bdec body_decode]. destruct (fixed_decode false _ r) as [b d' r'|d' r'| |] eqn:Ed; cbn [lift cc_header cc_hdec].
    - destruct (st_ok _ h); discriminate.
    - intros [= <- _]. split; [|reflexivity]. assert (r' = []) as ->.
      { unfold fixed_decode in Ed. cbn [fd_body fd_expected] in Ed. destruct (N.ltb_spec 0 (n - (if n <? nlen r then n else nlen r))) as [L|L]; [|discriminate].
        injection Ed as _ <-. destruct (N.ltb_spec n (nlen r)); [lia|]. apply skipn_nlen. }
      unfold codec_room. cbn [cc_bdec]. rewrite (fixed_room false {| fd_body := Some []; fd_expected := n |} r [] d' eq_refl Ed). cbn. lia.
    - discriminate.
    - discriminate. }
  unfold rtsp_body in F. destruct (last_field lc _ h) as [f|] eqn:El.
  - unfold length_body in F. destruct (hf_value f) as [value|] eqn:Ev; [|discriminate]. destruct (parse_uint 10 (usize_max bits) value) as [m|] eqn:Ep; [|discriminate].
    destruct (fixed_body bits m false) as [d| |] eqn:Ef; try discriminate. destruct (P _ _ Ef) as (P1 & ->). symmetry in F. apply Q in F as (Q1 & Q2).
    right. exists h, f, value, m. auto 10.
  - destruct (fixed_body bits 0 false) as [d| |] eqn:Ef; try discriminate. destruct (P _ _ Ef) as (P1 & ->). symmetry in F. apply Q in F as (Q1 & Q2). now left.
Qed.
