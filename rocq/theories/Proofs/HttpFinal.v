(** The statements about HTTP and RTSP in their final form. *)
From Coq Require Import String NArith List Bool Lia.
From Coq Require Import ZArith ZifyBool ZifyNat ZifyN.
From Verif.Model Require Import Bytes Utf8 Text Http.
From Verif.Spec Require Import HttpSpec.
From Verif.Proofs Require Import BytesFacts TextProofs HttpLines HttpLaws HttpCodec HttpExact HttpBodies HttpResponse.
Import ListNotations.
Local Open Scope N_scope.

Lemma lines_all max pieces : 0 < max ->
  exists ls tail, List.concat pieces = with_ends ls ++ tail /\ Forall (good_line max) ls /\
    ((deliver (line_decode crlf max) [] [] pieces = (ls, More tail []) /\ cut_line max tail = CMore) \/
     (deliver (line_decode crlf max) [] [] pieces = (ls, Fail) /\ cut_line max tail = CRefused)).
Proof. intros H. exact (deliver_lines max H pieces [] (buf_nil max H)). Qed.

Lemma header_pieces lc maxlen maxlines pieces : 0 < maxlen ->
  reading (feed (header_decode lc maxlen maxlines) hdec_new [] pieces) = header_decode lc maxlen maxlines hdec_new (List.concat pieces).
Proof.
  intros H. apply (feed_law (hinv maxlen)); [now apply header_law|now apply hinv_new|left].
  unfold header_decode. cbn [length header_loop]. rewrite line_decode_cut by now apply buf_nil. rewrite app_nil_r. unfold cut_line. cbn [first_line].
  change (nlen []) with 0. change (hd_buf hdec_new) with (@nil N). cbn [first_line]. change (nlen []) with 0. destruct (N.ltb_spec 0 maxlen); [reflexivity|lia].
Qed.
Lemma header_reading lc maxlen maxlines p v c r n ls rest pieces :
  good_status p v c r n -> header_lines maxlen maxlines (status_line p v c r) ls ->
  List.concat pieces = with_ends (status_line p v c r :: ls) ++ [13; 10] ++ rest ->
  reading (feed (header_decode lc maxlen maxlines) hdec_new [] pieces) = Item (header_of lc p v n r (line_fields ls)) hdec_new rest.
Proof. intros Hs Hl E. rewrite header_pieces by exact (stream_maxlen _ _ _ _ Hl). rewrite E. now apply header_whole. Qed.
Lemma header_limit lc maxlen maxlines p v c r n ls l rest pieces :
  good_status p v c r n -> good_line maxlen (status_line p v c r) -> Forall (good_line maxlen) ls -> Forall (fun l => l <> []) ls ->
  nlen ls + 1 = maxlines -> good_line maxlen l ->
  List.concat pieces = with_ends (status_line p v c r :: ls ++ [l]) ++ rest ->
  reading (feed (header_decode lc maxlen maxlines) hdec_new [] pieces) = Fail.
Proof.
  intros Hs G0 G NE Hn Gl E. pose proof (good_pos _ _ G0) as Hm. rewrite (header_pieces _ _ _ _ Hm), E.
  replace (with_ends (status_line p v c r :: ls ++ [l]) ++ rest) with (with_ends (status_line p v c r :: ls) ++ (l ++ [13; 10] ++ rest)).
  - apply header_refused; [exact Hm|now constructor|exact NE|unfold nlen in *; cbn [length]; lia|rewrite (status_exact _ _ _ _ _ Hs); discriminate|].
    right. split; [unfold nlen in *; cbn [length]; lia|]. exists l, rest. now split.
  - change (status_line p v c r :: ls ++ [l]) with ((status_line p v c r :: ls) ++ [l]). rewrite with_ends_app, <- app_assoc. f_equal.
    unfold with_ends. cbn [map List.concat]. now rewrite app_nil_r, <- app_assoc.
Qed.
Lemma header_long lc maxlen maxlines ls tail pieces : 0 < maxlen ->
  match ls with l0 :: _ => exists p v c r n, l0 = status_line p v c r /\ good_status p v c r n | [] => True end ->
  Forall (good_line maxlen) ls -> Forall (fun l => l <> []) (tl ls) -> nlen ls <= maxlines -> cut_line maxlen tail = CRefused ->
  List.concat pieces = with_ends ls ++ tail ->
  reading (feed (header_decode lc maxlen maxlines) hdec_new [] pieces) = Fail.
Proof.
  intros Hm H0 G NE Hn Ht E. rewrite (header_pieces _ _ _ _ Hm), E. apply header_refused; auto; [|now left].
  destruct ls as [|l0 ls]; [exact I|]. destruct H0 as (p & v & c & r & n & -> & H0). rewrite (status_exact _ _ _ _ _ H0). discriminate.
Qed.

Lemma fields_lookup_all lc os name :
  fields_get lc name (fields_of lc os) = filter (same_name lc name) (listed lc os) /\ f_list (fields_of lc os) = listed lc os.
Proof. split; [apply fields_lookup|apply fields_listed]. Qed.
Lemma request_rendered lc os method path protocol version :
  request_text method path protocol version (fields_of lc os) =
  with_ends ((method ++ [32] ++ path ++ [32] ++ protocol ++ [47] ++ version) :: map field_text (listed lc os)) ++ [13; 10].
Proof.
  unfold request_text. rewrite fields_listed. unfold with_ends. cbn [map List.concat]. rewrite flat_map_concat_map, map_map, <- !app_assoc. reflexivity.
Qed.

Lemma http_segmentation lc bits maxlen maxlines ignore p1 p2 closed : 0 < maxlen -> List.concat p1 = List.concat p2 ->
  receive lc bits (http lc bits maxlen maxlines ignore) p1 closed = receive lc bits (http lc bits maxlen maxlines ignore) p2 closed /\
  receive lc bits (rtsp lc bits maxlen maxlines ignore) p1 closed = receive lc bits (rtsp lc bits maxlen maxlines ignore) p2 closed.
Proof.
  intros Hm E. split.
  - exact (receive_chunking lc bits (http lc bits maxlen maxlines ignore) Hm (http_inv lc bits maxlen maxlines ignore Hm) p1 p2 closed E).
  - exact (receive_chunking lc bits (rtsp lc bits maxlen maxlines ignore) Hm (rtsp_inv lc bits maxlen maxlines ignore) p1 p2 closed E).
Qed.

(** A Content-Length that cannot be allocated. *)
Lemma length_body_panics bits f v n : hf_value f = Some v -> v <> [] -> digits_val 10 v 0 = Some n -> 2 ^ (bits - 1) <= n < 2 ^ bits ->
  length_body bits f false = RPanic.
Proof.
  intros Ev Hv Hd Hn. assert (Hu : n <= usize_max bits) by (unfold usize_max; lia).
  assert (Hi : isize_max bits < n) by (unfold isize_max; assert (2 ^ (bits - 1) <> 0) by (apply N.pow_nonzero; discriminate); lia).
  unfold length_body. rewrite Ev, (parse_decimal (usize_max bits) v n Hv Hd) by lia.
  unfold fixed_body, fixed_new. cbn [negb andb]. destruct (N.ltb_spec (isize_max bits) n); [reflexivity|lia].
Qed.
Lemma rtsp_panics lc bits maxlen maxlines c r n ls f value m rest pieces closed :
  let p := lit "RTSP"%string in let v := lit "1.0"%string in
  good_status p v c r n -> header_lines maxlen maxlines (status_line p v c r) ls ->
  newest lc (lit "content-length"%string) (line_fields ls) = Some f -> hf_value f = Some value -> value <> [] -> digits_val 10 value 0 = Some m ->
  2 ^ (bits - 1) <= m < 2 ^ bits ->
  List.concat pieces = with_ends (status_line p v c r :: ls) ++ [13; 10] ++ rest ->
  receive lc bits (rtsp lc bits maxlen maxlines false) pieces closed = Panic.
Proof.
  intros p v Hs Hl Hc Ef Hv0 Hd Hn E. pose proof (stream_maxlen _ _ _ _ Hl) as Hm.
  rewrite (receive_reading lc bits (rtsp lc bits maxlen maxlines false) Hm (rtsp_inv lc bits maxlen maxlines false)).
  unfold codec_decode. cbn [cc_header codec_new cc_hdec st_maxlen st_maxlines st_ignore st_body rtsp].
  rewrite E, (header_whole lc maxlen maxlines p v c r n ls rest Hs Hl). unfold rtsp_body. rewrite last_newest, Hc, (length_body_panics bits f value m Ef Hv0 Hd Hn).
  reflexivity.
Qed.
Lemma http_panics lc bits maxlen maxlines v c r n ls f value m rest pieces closed :
  let p := lit "HTTP"%string in
  good_status p v c r n -> header_lines maxlen maxlines (status_line p v c r) ls -> no_body n = false ->
  newest lc (lit "transfer-encoding"%string) (line_fields ls) = None ->
  newest lc (lit "content-length"%string) (line_fields ls) = Some f -> hf_value f = Some value -> value <> [] -> digits_val 10 value 0 = Some m ->
  2 ^ (bits - 1) <= m < 2 ^ bits ->
  List.concat pieces = with_ends (status_line p v c r :: ls) ++ [13; 10] ++ rest ->
  receive lc bits (http lc bits maxlen maxlines false) pieces closed = Panic.
Proof.
  intros p Hs Hl Hb Ht Hc Ef Hv0 Hd Hn E. pose proof (stream_maxlen _ _ _ _ Hl) as Hm.
  rewrite (receive_reading lc bits (http lc bits maxlen maxlines false) Hm (http_inv lc bits maxlen maxlines false Hm)).
  unfold codec_decode. cbn [cc_header codec_new cc_hdec st_maxlen st_maxlines st_ignore st_body http].
  rewrite E, (header_whole lc maxlen maxlines p v c r n ls rest Hs Hl). unfold http_body.
  change (rh_code (header_of lc p v n r (line_fields ls))) with n. fold (no_body n). rewrite Hb.
  rewrite !last_newest, Ht, Hc, (length_body_panics bits f value m Ef Hv0 Hd Hn). reflexivity.
Qed.
