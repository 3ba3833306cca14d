(** The codecs. *)
From Coq Require Import String NArith List Bool Lia.
From Coq Require Import ZArith ZifyBool ZifyNat ZifyN.
From Verif.Model Require Import Bytes Utf8 Text Http.
From Verif.Spec Require Import HttpSpec.
From Verif.Proofs Require Import TextProofs HttpLines HttpLaws.
Import ListNotations.
Local Open Scope N_scope.

Lemma chunked_no_crash bits maxlen ignore s data : 0 < maxlen -> cinv maxlen s -> chunked_decode bits maxlen ignore s data <> Crash.
Proof.
  intros Hm. unfold chunked_decode. remember (S (length data)) as f eqn:Ef. assert (Hf : (length data < f)%nat) by lia. clear Ef.
  revert s data Hf. induction f as [|f IH]; intros s data Hf I; [lia|]. destruct data as [|b data]; [discriminate|]. cbn [chunked_loop].
  pose proof (chunked_step_law bits maxlen Hm ignore s (b :: data) [] I ltac:(discriminate)) as L.
  destruct (chunked_step bits maxlen ignore s (b :: data)) as [a s' r|s' r| |]; try discriminate.
  - destruct L as (I' & L & _). apply IH; [cbn in *; lia|exact I'].
  - destruct L.
Qed.

Section Codec.
Variable lc : bytes -> bytes.
Variable bits : N.
Variable c : settings.
Hypothesis Hmax : 0 < st_maxlen c.

Definition dinv (d : bdec) : Prop :=
  match d with DSimple _ => True | DFixed d => finv d | DChunked d => cinv (st_maxlen c) d end.
Hypothesis Hbody : forall h d, st_body c (st_ignore c) h = ROk d -> dinv d.

Lemma body_law : chunk_law dinv (body_decode bits (st_maxlen c) (st_ignore c)).
Proof.
  intros [b|d|d] x y I; cbn [body_decode].
  - pose proof (simple_law (st_ignore c) b x y Logic.I) as L. destruct (simple_decode _ b x); cbn [lift]; rewrite ?L; try reflexivity.
    destruct L as (-> & _ & ->). auto.
  - pose proof (fixed_law (st_ignore c) d x y I) as L. destruct (fixed_decode _ d x); cbn [lift]; rewrite ?L; try reflexivity.
    destruct L as (-> & I' & ->). auto.
  - pose proof (chunked_law bits (st_maxlen c) Hmax (st_ignore c) d x y I) as L. destruct (chunked_decode _ _ _ d x); cbn [lift]; rewrite ?L; try reflexivity.
    destruct L as (-> & I' & ->). auto.
Qed.
Lemma body_no_crash d x : dinv d -> body_decode bits (st_maxlen c) (st_ignore c) d x <> Crash.
Proof.
  destruct d as [b|d|d]; intros I; cbn [body_decode].
  - discriminate.
  - unfold fixed_decode. destruct (0 <? _); [discriminate|]. destruct (match fd_body d with Some _ => _ | None => _ end); discriminate.
  - pose proof (chunked_no_crash bits (st_maxlen c) (st_ignore c) d x Hmax I). destruct (chunked_decode _ _ _ d x); try discriminate. congruence.
Qed.
Lemma body_eof_no_crash d : dinv d -> body_decode_eof bits (st_maxlen c) (st_ignore c) d [] <> Crash.
Proof.
  destruct d as [b|d|d]; intros I; cbn [body_decode_eof].
  - discriminate.
  - unfold fixed_decode_eof. destruct (fixed_decode (st_ignore c) d []) eqn:E; try discriminate.
    + destruct (fd_body s); discriminate.
    + exfalso. unfold fixed_decode in E. destruct (0 <? _); [discriminate|]. destruct (match fd_body d with Some _ => _ | None => _ end); discriminate.
  - unfold chunked_decode_eof, chunked_decode. rewrite chunked_nil. destruct (cd_state d); discriminate.
Qed.

Definition kinv (s : codec) : Prop :=
  match cc_header s with
  | None => cc_bdec s = None /\ hinv (st_maxlen c) (cc_hdec s)
  | Some _ => exists d, cc_bdec s = Some d /\ dinv d
  end.
Lemma kinv_new : kinv codec_new.
Proof. split; [reflexivity|]. now apply hinv_new. Qed.

Notation bd := (body_decode bits (st_maxlen c) (st_ignore c)).
Lemma codec_body_law s x y h d : cc_header s = Some h -> cc_bdec s = Some d -> dinv d ->
  match codec_body c bd s x with
  | Item a s' r => codec_body c bd s (x ++ y) = Item a s' (r ++ y)
  | More s' r => r = [] /\ kinv s' /\ cc_header s' = Some h /\ codec_body c bd s (x ++ y) = codec_body c bd s' y
  | Fail => codec_body c bd s (x ++ y) = Fail
  | Crash => False
  end.
Proof.
  intros Eh Ed I. unfold codec_body. rewrite Ed, Eh. pose proof (body_law d x y I) as L.
  destruct (bd d x) as [b d' r|d' r| |] eqn:E.
  - rewrite L. destruct (st_ok c h); reflexivity.
  - destruct L as (-> & I' & L). split; [reflexivity|]. split; [unfold kinv; cbn; eauto|]. split; [reflexivity|]. rewrite L. cbn [cc_bdec cc_header cc_hdec]. reflexivity.
  - now rewrite L.
  - exact (body_no_crash d x I E).
Qed.
Lemma codec_law : chunk_law kinv (codec_decode lc bits c).
Proof.
  intros s x y I. unfold codec_decode. unfold kinv in I. destruct (cc_header s) as [h|] eqn:Eh.
  - destruct I as (d & Ed & I). pose proof (codec_body_law s x y h d Eh Ed I) as L. destruct (codec_body c bd s x) as [a s' r|s' r| |]; try exact L.
    + destruct L as (-> & Ik & Eh' & L). rewrite Eh'. auto.
    + destruct L.
  - destruct I as (Ed & Ih). pose proof (header_law lc (st_maxlen c) (st_maxlines c) Hmax (cc_hdec s) x y Ih) as L.
    destruct (header_decode lc (st_maxlen c) (st_maxlines c) (cc_hdec s) x) as [h hd r|hd r| |] eqn:E.
    + rewrite L. destruct (st_body c (st_ignore c) h) as [d| |] eqn:Eb; try reflexivity.
      pose proof (codec_body_law {| cc_hdec := hd; cc_header := Some h; cc_bdec := Some d |} r y h d eq_refl eq_refl (Hbody _ _ Eb)) as L2.
      destruct (codec_body c bd _ r) as [a s' r'|s' r'| |]; try exact L2.
      * destruct L2 as (-> & Ik & Eh' & L2). rewrite Eh'. auto.
      * destruct L2.
    + destruct L as (-> & Ih' & L). rewrite L. unfold codec_body at 1. cbn [cc_bdec]. rewrite Ed. split; [reflexivity|].
      split; [split; [reflexivity|exact Ih']|]. cbn [cc_header cc_hdec cc_bdec]. reflexivity.
    + now rewrite L.
    + now rewrite L.
Qed.
Lemma header_empty_buf s : hinv (st_maxlen c) s -> header_decode lc (st_maxlen c) (st_maxlines c) s [] = More s [].
Proof.
  intros I. unfold header_decode. cbn [length header_loop]. rewrite (line_decode_cut _ _ _ I). rewrite app_nil_r. destruct I as [I1 I2].
  unfold cut_line. rewrite I1. destruct (N.ltb_spec (nlen (hd_buf s)) (st_maxlen c)); [|lia]. destruct s; reflexivity.
Qed.
Lemma codec_empty : codec_decode lc bits c codec_new [] = More codec_new [].
Proof. unfold codec_decode. cbn [cc_header codec_new cc_hdec]. rewrite header_empty_buf by now apply hinv_new. reflexivity. Qed.

Definition outcome_of (o : outcome codec (rheader * bytes)) (closed : bool) : reception :=
  let give o := match o with Item (h, body) _ _ => Response h body | More _ _ => Closed | Fail => Error | Crash => Panic end in
  match o with
  | More s rest => if closed then give (codec_decode_eof lc bits c s rest) else Waiting
  | o => give o
  end.
Lemma receive_reading pieces closed :
  receive lc bits c pieces closed = outcome_of (codec_decode lc bits c codec_new (List.concat pieces)) closed.
Proof.
  rewrite <- (feed_law _ _ codec_law pieces codec_new kinv_new (or_introl codec_empty)). unfold receive.
  destruct (feed (codec_decode lc bits c) codec_new [] pieces) as [[[h b] s r|s r| |] ps]; reflexivity.
Qed.
Lemma receive_chunking p1 p2 closed : List.concat p1 = List.concat p2 -> receive lc bits c p1 closed = receive lc bits c p2 closed.
Proof. intros H. now rewrite !receive_reading, H. Qed.

Lemma receive_panic pieces closed : receive lc bits c pieces closed = Panic ->
  exists h rest, header_decode lc (st_maxlen c) (st_maxlines c) hdec_new (List.concat pieces) = Item h hdec_new rest /\
                 st_body c (st_ignore c) h = RPanic.
Proof.
  rewrite receive_reading. set (data := List.concat pieces).
  assert (B : forall s x h d, cc_header s = Some h -> cc_bdec s = Some d -> dinv d -> codec_body c bd s x <> Crash).
  { intros s x h d Eh Ed I. pose proof (codec_body_law s x [] h d Eh Ed I) as L. destruct (codec_body c bd s x); try discriminate. destruct L. }
  assert (C : codec_decode lc bits c codec_new data = Crash ->
    exists h rest, header_decode lc (st_maxlen c) (st_maxlines c) hdec_new data = Item h hdec_new rest /\ st_body c (st_ignore c) h = RPanic).
  { unfold codec_decode. cbn [cc_header codec_new cc_hdec cc_bdec].
    pose proof (header_no_crash lc (st_maxlen c) (st_maxlines c) Hmax hdec_new data (hinv_new _ Hmax)) as Hn.
    destruct (header_decode lc (st_maxlen c) (st_maxlines c) hdec_new data) as [h hd r|hd r| |] eqn:E; try discriminate; [|congruence].
    destruct (st_body c (st_ignore c) h) as [d| |] eqn:Eb; try discriminate.
    - intros X. exfalso. revert X. apply (B _ r h d); [reflexivity|reflexivity|exact (Hbody _ _ Eb)].
    - intros _. pose proof (header_item lc _ _ Hmax _ _ _ _ _ (hinv_new _ Hmax) E) as ->. eauto. }
  pose proof (codec_law codec_new data [] kinv_new) as L. rewrite app_nil_r in L.
  destruct (codec_decode lc bits c codec_new data) as [[h b] s r|s r| |] eqn:E; cbn [outcome_of]; try discriminate; [|auto].
  destruct L as (-> & I & _). destruct closed; [|discriminate]. intros X. exfalso. revert X. unfold codec_decode_eof. cbn [length codec_eof_loop].
  unfold codec_body. unfold kinv in I. destruct (cc_header s) as [h|].
  - destruct I as (d & -> & I). pose proof (body_eof_no_crash d I) as Y. destruct (body_decode_eof _ _ _ d []); try discriminate; [|congruence].
    destruct (st_ok c h); discriminate.
  - destruct I as (-> & _). discriminate.
Qed.
End Codec.

(** ** HTTP and RTSP *)
Section Both.
Variable lc : bytes -> bytes.
Variable bits : N.

Lemma fixed_body_inv mc n ignore d : fixed_body bits n ignore = ROk d -> dinv mc d.
Proof. unfold fixed_body, fixed_new. destruct (negb ignore && _); [discriminate|]. intros [= <-]. discriminate. Qed.
Lemma length_body_inv mc f ignore d : length_body bits f ignore = ROk d -> dinv mc d.
Proof. unfold length_body. destruct (hf_value f); [|discriminate]. destruct (parse_uint _ _ _); [|discriminate]. apply fixed_body_inv. Qed.
Lemma http_inv maxlen maxlines ignore : 0 < maxlen ->
  forall h d, st_body (http lc bits maxlen maxlines ignore) (st_ignore (http lc bits maxlen maxlines ignore)) h = ROk d -> dinv (http lc bits maxlen maxlines ignore) d.
Proof.
  intros Hm h d. cbn [st_body st_ignore http]. unfold http_body. destruct (_ || _); [apply fixed_body_inv|].
  destruct (last_field lc _ h).
  - destruct (beq _ _); intros [= <-]; [|exact I]. split; [now apply buf_nil|discriminate].
  - destruct (last_field lc _ h); [apply length_body_inv|]. intros [= <-]. exact I.
Qed.
Lemma rtsp_inv maxlen maxlines ignore :
  forall h d, st_body (rtsp lc bits maxlen maxlines ignore) (st_ignore (rtsp lc bits maxlen maxlines ignore)) h = ROk d -> dinv (rtsp lc bits maxlen maxlines ignore) d.
Proof.
  intros h d. cbn [st_body st_ignore rtsp]. unfold rtsp_body. destruct (last_field lc _ h); [apply length_body_inv|apply fixed_body_inv].
Qed.
Lemma isize_nonneg : (isize_max bits <? 0) = false.
Proof. apply N.ltb_ge. lia. Qed.
Lemma parse_number max v n : parse_uint 10 max v = Some n ->
  exists d, (v = d \/ v = 43 :: d) /\ d <> [] /\ digits_val 10 d 0 = Some n /\ n <= max.
Proof.
  clear. unfold parse_uint. set (body := match v with 43 :: ((_ :: _) as r) => r | _ => v end). intros H.
  assert (B : v = body \/ v = 43 :: body).
  { subst body. clear H. destruct v as [|b v]; [now left|]. destruct v as [|b2 v]; [left; destruct b as [|b]; [reflexivity|]; do 6 (destruct b as [b|b|]; try reflexivity)|].
    destruct (N.eq_dec b 43) as [->|Hb]; [now right|]. left. destruct b as [|b]; [reflexivity|]. do 6 (destruct b as [b|b|]; try reflexivity); congruence. }
  exists body. split; [exact B|]. clear B. destruct body as [|b r]; [discriminate|]. split; [discriminate|].
  destruct (digits_val 10 (b :: r) 0) as [x|]; [|discriminate]. destruct (N.leb_spec x max); [|discriminate]. injection H as <-. now split.
Qed.
Lemma length_panic f ignore : length_body bits f ignore = RPanic ->
  ignore = false /\ too_long bits f.
Proof.
  unfold length_body. destruct (hf_value f) as [v|] eqn:Ev; [|discriminate]. destruct (parse_uint 10 (usize_max bits) v) as [n|] eqn:E; [|discriminate].
  unfold fixed_body, fixed_new. destruct ignore; [discriminate|]. cbn [negb andb]. destruct (N.ltb_spec (isize_max bits) n); [|discriminate].
  intros _. split; [reflexivity|]. destruct (parse_number _ _ _ E) as (d & Hd & Hne & Hv & Hn). exists v, d, n.
  unfold isize_max, usize_max in *. assert (2 ^ (bits - 1) <> 0) by (apply N.pow_nonzero; discriminate). assert (2 ^ bits <> 0) by (apply N.pow_nonzero; discriminate). split; [exact Ev|]. split; [exact Hd|]. split; [exact Hne|]. split; [exact Hv|]. lia.
Qed.
Lemma fixed0 ignore : fixed_body bits 0 ignore <> RPanic.
Proof. unfold fixed_body, fixed_new. rewrite isize_nonneg, andb_false_r. discriminate. Qed.

Lemma http_panic maxlen maxlines ignore pieces closed : 0 < maxlen ->
  receive lc bits (http lc bits maxlen maxlines ignore) pieces closed = Panic ->
  ignore = false /\ exists h rest f, header_decode lc maxlen maxlines hdec_new (List.concat pieces) = Item h hdec_new rest /\
    last_field lc (lit "content-length"%string) h = Some f /\ too_long bits f.
Proof.
  intros Hm H. destruct (receive_panic lc bits (http lc bits maxlen maxlines ignore) Hm (http_inv _ _ _ Hm) _ _ H) as (h & rest & E & P).
  cbn [st_body st_ignore http st_maxlen st_maxlines] in *. unfold http_body in P. destruct (_ || _); [now apply fixed0 in P|].
  destruct (last_field lc (lit "transfer-encoding"%string) h); [destruct (beq _ _); discriminate|].
  destruct (last_field lc (lit "content-length"%string) h) as [f|] eqn:Ef; [|discriminate].
  apply length_panic in P as [-> P]. split; [reflexivity|]. exists h, rest, f. auto.
Qed.
Lemma rtsp_panic maxlen maxlines ignore pieces closed : 0 < maxlen ->
  receive lc bits (rtsp lc bits maxlen maxlines ignore) pieces closed = Panic ->
  ignore = false /\ exists h rest f, header_decode lc maxlen maxlines hdec_new (List.concat pieces) = Item h hdec_new rest /\
    last_field lc (lit "content-length"%string) h = Some f /\ too_long bits f.
Proof.
  intros Hm H. destruct (receive_panic lc bits (rtsp lc bits maxlen maxlines ignore) Hm (rtsp_inv _ _ _) _ _ H) as (h & rest & E & P).
  cbn [st_body st_ignore rtsp st_maxlen st_maxlines] in *. unfold rtsp_body in P.
  destruct (last_field lc (lit "content-length"%string) h) as [f|] eqn:Ef; [|now apply fixed0 in P].
  apply length_panic in P as [-> P]. split; [reflexivity|]. exists h, rest, f. auto.
Qed.
End Both.
