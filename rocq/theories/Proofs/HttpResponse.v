(** Whole responses. *)
From Coq Require Import String NArith List Bool Lia.
From Coq Require Import ZArith ZifyBool ZifyNat ZifyN.
From Verif.Model Require Import Bytes Utf8 Text Http.
From Verif.Spec Require Import HttpSpec.
From Verif.Proofs Require Import BytesFacts TextProofs TableJsonPf HttpLines HttpLaws HttpCodec HttpExact HttpBodies.
Import ListNotations.
Local Open Scope N_scope.

(** ** Status lines *)
Lemma visible_white b s : visible b -> white_first (b :: s) = false.
Proof.
  intros [H1 H2]. unfold white_first. destruct (existsb _ white_chars) eqn:E; [|reflexivity]. apply existsb_exists in E as (w & W1 & W2).
  apply starts_with_iff in W2 as (r & W2). unfold white_chars in W1. cbn in W1.
  repeat (destruct W1 as [<-|W1]; [cbn in W2; injection W2; intros; subst; lia|]). destruct W1.
Qed.
Lemma visible_word w : Forall visible w -> forall s, white_first s = true \/ s = [] -> read_until_white (w ++ s) = (w, s).
Proof.
  induction 1 as [|b w Hb Hw IH]; intros s Hs.
  - cbn [app]. destruct s as [|c s]; [reflexivity|]. cbn [read_until_white]. destruct Hs as [Hs|Hs]; [|discriminate]. now rewrite Hs.
  - cbn [app read_until_white]. rewrite (visible_white b _ Hb), (IH s Hs). reflexivity.
Qed.
Lemma strip_stop f s : white_first s = false -> strip_fuel f white_chars s = s.
Proof.
  intros H. destruct f as [|f]; [reflexivity|]. cbn [strip_fuel]. destruct (find (fun w => starts_with w s) white_chars) as [w|] eqn:E; [|reflexivity].
  apply find_some in E as [E1 E2]. unfold white_first in H. assert (X : existsb (fun w => starts_with w s) white_chars = true) by (apply existsb_exists; eauto).
  congruence.
Qed.
Lemma skip_visible b s : visible b -> skip_white (b :: s) = b :: s.
Proof. intros H. apply strip_stop. now apply visible_white. Qed.
Lemma skip_space s : white_first s = false -> skip_white (32 :: s) = s.
Proof.
  intros H. unfold skip_white, trim_start. cbn [length strip_fuel].
  assert (E : find (fun w => starts_with w (32 :: s)) white_chars = Some [32]) by (destruct s; reflexivity). rewrite E. cbn [length skipn]. now apply strip_stop.
Qed.
Lemma read_until_stop c w s : ~ In c w -> read_until c (w ++ c :: s) = (w, c :: s).
Proof.
  induction w as [|b w IH]; intros H; cbn [app read_until].
  - now rewrite N.eqb_refl.
  - destruct (N.eqb_spec b c) as [->|]; [exfalso; apply H; now left|]. rewrite IH; [reflexivity|]. intros I. apply H. now right.
Qed.
Lemma digit_visible b d : digit_val 10 b = Some d -> visible b /\ b <> 43.
Proof.
  unfold digit_val, visible. destruct ((48 <=? b) && (b <=? 57)) eqn:E; [lia|]. destruct ((97 <=? b) && (b <=? 122)) eqn:E2.
  - destruct (N.ltb_spec (b - 87) 10); [lia|discriminate].
  - destruct ((65 <=? b) && (b <=? 90)) eqn:E3; [|discriminate]. destruct (N.ltb_spec (b - 55) 10); [lia|discriminate].
Qed.
Lemma digits_visible s : forall acc n, digits_val 10 s acc = Some n -> Forall (fun b => visible b /\ b <> 43) s.
Proof.
  induction s as [|b s IH]; intros acc n H; [constructor|]. cbn [digits_val] in H. destruct (digit_val 10 b) as [d|] eqn:E; [|discriminate].
  constructor; [exact (digit_visible _ _ E)|exact (IH _ _ H)].
Qed.
Lemma parse_decimal max s n : s <> [] -> digits_val 10 s 0 = Some n -> n <= max -> parse_uint 10 max s = Some n.
Proof.
  intros Hs Hd Hn. destruct s as [|b s]; [congruence|]. pose proof (digits_visible _ _ _ Hd) as F. inversion F as [|? ? [F1 F2] F3]; subst.
  rewrite (parse_uint_plain _ _ _ _ F2), Hd. destruct (N.leb_spec n max); [reflexivity|lia].
Qed.
Lemma forall_head {P : N -> Prop} w s : Forall P w -> w <> [] -> exists b r, w ++ s = b :: r /\ P b.
Proof. destruct 1 as [|b w Hb Hw]; [congruence|]. intros _. exists b, (w ++ s). split; [reflexivity|exact Hb]. Qed.
Lemma status_exact p v c r n : good_status p v c r n ->
  status_parse (status_line p v c r) = Some {| rh_protocol := p; rh_version := v; rh_code := n; rh_line := trim r; rh_fields := fields_new |}.
Proof.
  intros (Hp & Hv0 & Hv & Hc0 & Hc & Hn & Hr). unfold status_parse, status_line. cbn [app]. rewrite (read_until_stop 47 p _ Hp). cbn [match_char]. rewrite N.eqb_refl.
  unfold read_word. destruct (forall_head v (32 :: c ++ r) Hv Hv0) as (b & s & E & Hb). rewrite E, (skip_visible b s Hb), <- E.
  rewrite (visible_word v Hv) by now left.
  assert (Hc' : Forall visible c) by (eapply Forall_impl; [|exact (digits_visible _ _ _ Hc)]; tauto).
  destruct (forall_head c r Hc' Hc0) as (b2 & s2 & E2 & Hb2).
  rewrite skip_space by (rewrite E2; now apply visible_white).
  rewrite (visible_word c Hc') by (destruct Hr as [->|(r' & ->)]; [now right|now left]).
  now rewrite (parse_decimal 65535 c n Hc0 Hc) by lia.
Qed.

(** ** Fields *)
Lemma find_char_first c w s : ~ In c w -> find_char c (w ++ c :: s) = Some (length w).
Proof.
  induction w as [|b w IH]; intros H; cbn [app find_char length].
  - now rewrite N.eqb_refl.
  - destruct (N.eqb_spec b c) as [->|]; [exfalso; apply H; now left|]. rewrite IH; [reflexivity|]. intros I. apply H. now right.
Qed.
Lemma field_exact name value : ~ In 58 name -> field_parse (name ++ [58] ++ value) = {| hf_name := trim name; hf_value := Some (trim value) |}.
Proof.
  intros H. unfold field_parse. cbn [app]. rewrite (find_char_first 58 name value H). rewrite firstn_app, Nat.sub_diag, firstn_all, app_nil_r.
  rewrite skipn_app, skipn_all2 by lia. replace (S (length name) - length name)%nat with 1%nat by lia. reflexivity.
Qed.

Section Whole.
Variable lc : bytes -> bytes.
Lemma listed_adds fs : listed lc (map FAdd fs) = fs.
Proof.
  unfold listed. assert (X : forall l, fold_left (fun l o => match o with FAdd f => l ++ [f] | FSet f => filter (fun g => negb (same_name lc (hf_name f) g)) l ++ [f] end) (map FAdd fs) l = l ++ fs).
  { induction fs as [|f fs IH]; intros l; cbn [map fold_left]; [now rewrite app_nil_r|]. rewrite IH, <- app_assoc. reflexivity. }
  apply X.
Qed.
Lemma last_newest p v n r fs name : last_field lc name (header_of lc p v n r fs) = newest lc name fs.
Proof.
  unfold last_field, header_of. cbn [rh_fields]. rewrite fields_lookup, listed_adds. unfold newest.
  rewrite <- (rev_involutive fs). induction (rev fs) as [|f l IH]; [reflexivity|]. cbn [rev]. rewrite filter_app, fold_left_app. cbn [filter fold_left].
  destruct (same_name lc name f); [now rewrite rev_app_distr|]. now rewrite app_nil_r.
Qed.

Variables maxlen maxlines : N.
Lemma header_whole p v c r n ls rest : good_status p v c r n -> header_lines maxlen maxlines (status_line p v c r) ls ->
  header_decode lc maxlen maxlines hdec_new (with_ends (status_line p v c r :: ls) ++ [13; 10] ++ rest) =
  Item (header_of lc p v n r (line_fields ls)) hdec_new rest.
Proof.
  intros Hs (G0 & G & NE & Hn). rewrite (header_exact lc maxlen maxlines _ _ ls rest G0 (status_exact p v c r n Hs) G NE Hn). f_equal.
  unfold with_fields, header_of, line_fields. cbn [rh_protocol rh_version rh_code rh_line]. now rewrite map_map.
Qed.

Section Codec.
Variable bits : N.
Variable c : settings.
Hypothesis Hmax : 0 < st_maxlen c.
Hypothesis Hbody : forall h d, st_body c (st_ignore c) h = ROk d -> dinv c d.
Lemma receive_item pieces closed h rest d b d' rest' :
  header_decode lc (st_maxlen c) (st_maxlines c) hdec_new (List.concat pieces) = Item h hdec_new rest ->
  st_body c (st_ignore c) h = ROk d -> body_decode bits (st_maxlen c) (st_ignore c) d rest = Item b d' rest' ->
  receive lc bits c pieces closed = if st_ok c h then Response h b else Error.
Proof.
  intros E1 E2 E3. rewrite (receive_reading lc bits c Hmax Hbody). unfold codec_decode. cbn [cc_header codec_new cc_hdec]. rewrite E1, E2.
  unfold codec_body. cbn [cc_bdec]. rewrite E3. cbn [cc_header]. now destruct (st_ok c h).
Qed.
Lemma receive_more pieces h rest d d' b d2 rest' :
  header_decode lc (st_maxlen c) (st_maxlines c) hdec_new (List.concat pieces) = Item h hdec_new rest ->
  st_body c (st_ignore c) h = ROk d -> body_decode bits (st_maxlen c) (st_ignore c) d rest = More d' [] ->
  body_decode_eof bits (st_maxlen c) (st_ignore c) d' [] = Item b d2 rest' ->
  receive lc bits c pieces false = Waiting /\ receive lc bits c pieces true = if st_ok c h then Response h b else Error.
Proof.
  intros E1 E2 E3 E4. rewrite !(receive_reading lc bits c Hmax Hbody). unfold codec_decode. cbn [cc_header codec_new cc_hdec]. rewrite E1, E2.
  unfold codec_body at 1 2. cbn [cc_bdec]. rewrite E3. split; [reflexivity|]. cbn [outcome_of codec_decode_eof]. unfold codec_decode_eof. cbn [codec_eof_loop].
  unfold codec_body. cbn [cc_bdec cc_header]. rewrite E4. now destruct (st_ok c h).
Qed.
Lemma receive_bad pieces closed : header_decode lc (st_maxlen c) (st_maxlines c) hdec_new (List.concat pieces) = Fail ->
  receive lc bits c pieces closed = Error.
Proof. intros E. rewrite (receive_reading lc bits c Hmax Hbody). unfold codec_decode. cbn [cc_header codec_new cc_hdec]. now rewrite E. Qed.
End Codec.
End Whole.

Section Answers.
Variable lc : bytes -> bytes.
Variables bits maxlen maxlines : N.

Lemma http_version p v n r fs : p = lit "HTTP"%string -> v = lit "1.0"%string \/ v = lit "1.1"%string -> http_ok (header_of lc p v n r fs) = true.
Proof. intros -> [->| ->]; reflexivity. Qed.
Lemma rtsp_version p v n r fs : p = lit "RTSP"%string -> v = lit "1.0"%string -> rtsp_ok (header_of lc p v n r fs) = true.
Proof. intros -> ->; reflexivity. Qed.

Lemma stream_maxlen l0 ls : header_lines maxlen maxlines l0 ls -> 0 < maxlen.
Proof. intros (G & _). exact (good_pos _ _ G). Qed.

Lemma length_body_ok f v n : hf_value f = Some v -> v <> [] -> digits_val 10 v 0 = Some n -> n < 2 ^ (bits - 1) ->
  length_body bits f false = ROk (DFixed {| fd_body := Some []; fd_expected := n |}).
Proof.
  intros Ev Hv Hd Hn. unfold length_body. rewrite Ev.
  assert (Hi : n <= isize_max bits) by (unfold isize_max; lia). clear Hn.
  assert (Hm : isize_max bits <= usize_max bits).
  { unfold isize_max, usize_max. pose proof (N.pow_le_mono_r 2 (bits - 1) bits). lia. }
  rewrite (parse_decimal (usize_max bits) v n Hv Hd) by lia. unfold fixed_body, fixed_new. cbn [negb andb]. destruct (N.ltb_spec (isize_max bits) n); [lia|reflexivity].
Qed.
Lemma fixed_item body rest :
  body_decode bits maxlen false (DFixed {| fd_body := Some []; fd_expected := nlen body |}) (body ++ rest) = Item body (DFixed {| fd_body := None; fd_expected := 0 |}) rest.
Proof.
  cbn [body_decode]. rewrite fixed_exact. assert (L : nlen body <=? nlen (body ++ rest) = true) by (apply N.leb_le; unfold nlen; rewrite app_length; lia).
  rewrite L. cbn [lift]. unfold nlen. rewrite Nat2N.id, firstn_app, skipn_app, firstn_all, skipn_all, Nat.sub_diag. cbn [firstn skipn]. now rewrite app_nil_r.
Qed.

Definition te := lit "transfer-encoding"%string.
Definition cl := lit "content-length"%string.

Lemma http_fixed v c r n ls f value body rest pieces closed :
  let p := lit "HTTP"%string in
  good_status p v c r n -> v = lit "1.0"%string \/ v = lit "1.1"%string -> header_lines maxlen maxlines (status_line p v c r) ls ->
  no_body n = false -> newest lc te (line_fields ls) = None -> newest lc cl (line_fields ls) = Some f -> hf_value f = Some value ->
  value <> [] -> digits_val 10 value 0 = Some (nlen body) -> nlen body < 2 ^ (bits - 1) ->
  List.concat pieces = with_ends (status_line p v c r :: ls) ++ [13; 10] ++ body ++ rest ->
  receive lc bits (http lc bits maxlen maxlines false) pieces closed = Response (header_of lc p v n r (line_fields ls)) body.
Proof.
  intros p Hs Hv Hl Hb Ht Hc Ef Hv0 Hd Hn E. pose proof (stream_maxlen _ _ Hl) as Hm.
  rewrite (receive_item lc bits (http lc bits maxlen maxlines false) Hm (http_inv lc bits maxlen maxlines false Hm) pieces closed
    (header_of lc p v n r (line_fields ls)) (body ++ rest) (DFixed {| fd_body := Some []; fd_expected := nlen body |}) body (DFixed {| fd_body := None; fd_expected := 0 |}) rest).
  - cbn [st_ok http]. now rewrite (http_version p v n r _ eq_refl Hv).
  - rewrite E. now apply header_whole.
  - cbn [st_body st_ignore http]. unfold http_body. change (rh_code (header_of lc p v n r (line_fields ls))) with n. fold (no_body n). rewrite Hb.
    fold te cl. rewrite !last_newest, Ht, Hc. exact (length_body_ok f value _ Ef Hv0 Hd Hn).
  - apply fixed_item.
Qed.
Lemma rtsp_fixed c r n ls f value body rest pieces closed :
  let p := lit "RTSP"%string in let v := lit "1.0"%string in
  good_status p v c r n -> header_lines maxlen maxlines (status_line p v c r) ls ->
  newest lc cl (line_fields ls) = Some f -> hf_value f = Some value -> value <> [] -> digits_val 10 value 0 = Some (nlen body) -> nlen body < 2 ^ (bits - 1) ->
  List.concat pieces = with_ends (status_line p v c r :: ls) ++ [13; 10] ++ body ++ rest ->
  receive lc bits (rtsp lc bits maxlen maxlines false) pieces closed = Response (header_of lc p v n r (line_fields ls)) body.
Proof.
  intros p v Hs Hl Hc Ef Hv0 Hd Hn E. pose proof (stream_maxlen _ _ Hl) as Hm.
  rewrite (receive_item lc bits (rtsp lc bits maxlen maxlines false) Hm (rtsp_inv lc bits maxlen maxlines false) pieces closed
    (header_of lc p v n r (line_fields ls)) (body ++ rest) (DFixed {| fd_body := Some []; fd_expected := nlen body |}) body (DFixed {| fd_body := None; fd_expected := 0 |}) rest).
  - cbn [st_ok rtsp]. now rewrite (rtsp_version p v n r _ eq_refl eq_refl).
  - rewrite E. now apply header_whole.
  - cbn [st_body st_ignore rtsp]. unfold rtsp_body. fold cl. rewrite !last_newest, Hc. exact (length_body_ok f value _ Ef Hv0 Hd Hn).
  - apply fixed_item.
Qed.
Lemma rtsp_none ignore c r n ls rest pieces closed :
  let p := lit "RTSP"%string in let v := lit "1.0"%string in
  good_status p v c r n -> header_lines maxlen maxlines (status_line p v c r) ls -> newest lc cl (line_fields ls) = None ->
  List.concat pieces = with_ends (status_line p v c r :: ls) ++ [13; 10] ++ rest ->
  receive lc bits (rtsp lc bits maxlen maxlines ignore) pieces closed = Response (header_of lc p v n r (line_fields ls)) [].
Proof.
  intros p v Hs Hl Hc E. pose proof (stream_maxlen _ _ Hl) as Hm.
  rewrite (receive_item lc bits (rtsp lc bits maxlen maxlines ignore) Hm (rtsp_inv lc bits maxlen maxlines ignore) pieces closed
    (header_of lc p v n r (line_fields ls)) rest (DFixed {| fd_body := Some []; fd_expected := 0 |}) [] (DFixed {| fd_body := None; fd_expected := 0 |}) rest).
  - cbn [st_ok rtsp]. now rewrite (rtsp_version p v n r _ eq_refl eq_refl).
  - rewrite E. now apply header_whole.
  - cbn [st_body st_ignore rtsp]. unfold rtsp_body. fold cl. rewrite !last_newest, Hc. unfold fixed_body, fixed_new. now rewrite isize_nonneg, andb_false_r.
  - cbn [body_decode st_ignore rtsp]. rewrite fixed_exact. destruct (N.leb_spec 0 (nlen rest)); [|lia]. cbn [lift N.to_nat firstn skipn]. now destruct ignore.
Qed.
Lemma http_none ignore v c r n ls rest pieces closed :
  let p := lit "HTTP"%string in
  good_status p v c r n -> v = lit "1.0"%string \/ v = lit "1.1"%string -> header_lines maxlen maxlines (status_line p v c r) ls ->
  no_body n = true -> List.concat pieces = with_ends (status_line p v c r :: ls) ++ [13; 10] ++ rest ->
  receive lc bits (http lc bits maxlen maxlines ignore) pieces closed = Response (header_of lc p v n r (line_fields ls)) [].
Proof.
  intros p Hs Hv Hl Hb E. pose proof (stream_maxlen _ _ Hl) as Hm.
  rewrite (receive_item lc bits (http lc bits maxlen maxlines ignore) Hm (http_inv lc bits maxlen maxlines ignore Hm) pieces closed
    (header_of lc p v n r (line_fields ls)) rest (DFixed {| fd_body := Some []; fd_expected := 0 |}) [] (DFixed {| fd_body := None; fd_expected := 0 |}) rest).
  - cbn [st_ok http]. now rewrite (http_version p v n r _ eq_refl Hv).
  - rewrite E. now apply header_whole.
  - cbn [st_body st_ignore http]. unfold http_body. change (rh_code (header_of lc p v n r (line_fields ls))) with n. fold (no_body n). rewrite Hb.
    unfold fixed_body, fixed_new. now rewrite isize_nonneg, andb_false_r.
  - cbn [body_decode st_ignore http]. rewrite fixed_exact. destruct (N.leb_spec 0 (nlen rest)); [|lia]. cbn [lift N.to_nat firstn skipn]. now destruct ignore.
Qed.
Lemma http_close v c r n ls body pieces :
  let p := lit "HTTP"%string in
  good_status p v c r n -> v = lit "1.0"%string \/ v = lit "1.1"%string -> header_lines maxlen maxlines (status_line p v c r) ls ->
  no_body n = false -> newest lc te (line_fields ls) = None -> newest lc cl (line_fields ls) = None ->
  List.concat pieces = with_ends (status_line p v c r :: ls) ++ [13; 10] ++ body ->
  receive lc bits (http lc bits maxlen maxlines false) pieces false = Waiting /\
  receive lc bits (http lc bits maxlen maxlines false) pieces true = Response (header_of lc p v n r (line_fields ls)) body.
Proof.
  intros p Hs Hv Hl Hb Ht Hc E. pose proof (stream_maxlen _ _ Hl) as Hm.
  destruct (receive_more lc bits (http lc bits maxlen maxlines false) Hm (http_inv lc bits maxlen maxlines false Hm) pieces
    (header_of lc p v n r (line_fields ls)) body (DSimple []) (DSimple body) body (DSimple []) []) as [R1 R2].
  - rewrite E. now apply header_whole.
  - cbn [st_body st_ignore http]. unfold http_body. change (rh_code (header_of lc p v n r (line_fields ls))) with n. fold (no_body n). rewrite Hb.
    fold te cl. now rewrite !last_newest, Ht, Hc.
  - reflexivity.
  - cbn [body_decode_eof lift simple_decode_eof st_ignore http]. now rewrite app_nil_r.
  - split; [exact R1|]. rewrite R2. cbn [st_ok http]. now rewrite (http_version p v n r _ eq_refl Hv).
Qed.
Lemma http_chunked v c r n ls f cs zero ext trailer rest pieces closed :
  let p := lit "HTTP"%string in
  good_status p v c r n -> v = lit "1.0"%string \/ v = lit "1.1"%string -> header_lines maxlen maxlines (status_line p v c r) ls ->
  no_body n = false -> newest lc te (line_fields ls) = Some f -> (exists value, hf_value f = Some value /\ lc value = lit "chunked"%string) ->
  hexadecimal zero 0 -> chunk_head maxlen zero ext -> Forall (good_line maxlen) trailer -> Forall (fun l => l <> []) trailer -> Forall (good_chunk bits maxlen) cs ->
  List.concat pieces = with_ends (status_line p v c r :: ls) ++ [13; 10] ++ chunked_bytes cs zero ext trailer ++ rest ->
  receive lc bits (http lc bits maxlen maxlines false) pieces closed = Response (header_of lc p v n r (line_fields ls)) (List.concat (map ck_data cs)).
Proof.
  intros p Hs Hv Hl Hb Ht (value & Ef & Ec) Hz Hh Gt Nt Gc E. pose proof (stream_maxlen _ _ Hl) as Hm.
  rewrite (receive_item lc bits (http lc bits maxlen maxlines false) Hm (http_inv lc bits maxlen maxlines false Hm) pieces closed
    (header_of lc p v n r (line_fields ls)) (chunked_bytes cs zero ext trailer ++ rest) (DChunked chunked_new) (List.concat (map ck_data cs))
    (DChunked {| cd_state := CCompleted; cd_buf := []; cd_body := []; cd_expected := 0 |}) rest).
  - cbn [st_ok http]. now rewrite (http_version p v n r _ eq_refl Hv).
  - rewrite E. now apply header_whole.
  - cbn [st_body st_ignore http]. unfold http_body. change (rh_code (header_of lc p v n r (line_fields ls))) with n. fold (no_body n). rewrite Hb.
    fold te cl. rewrite !last_newest, Ht, Ef, Ec, beq_refl. reflexivity.
  - cbn [body_decode st_maxlen st_ignore http]. unfold chunked_decode.
    pose proof (chunked_run bits maxlen false zero ext trailer rest Hz Hh Gt Nt cs Gc _ [] 0 (Nat.le_succ_diag_r _)) as X.
    unfold at_header in X. unfold chunked_new. now rewrite X.
Qed.
End Answers.
