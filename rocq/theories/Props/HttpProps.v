(** Properties of HTTP and RTSP responses: C52-C57 and C74.

    [feed dec s [] pieces] is the first result of a decoder that gets the stream in [pieces], one after the
    other; [reading] adds what was not read to what the decoder left. [deliver] goes on after every item.
    [receive lc bits c pieces closed] is the result of a request: [lc] is `str::to_lowercase`, [bits] the width of
    `usize`, [closed] tells that the connection was closed after the pieces. The definitions used in the
    statements are in Spec/HttpSpec.v. *)
From Coq Require Import String NArith List Bool Lia.
From Verif.Model Require Import Bytes Utf8 Text Http.
From Verif.Spec Require Import ControlSpec TextSpec HttpSpec.
From Verif.Proofs Require Import HttpCodec HttpBodies HttpResponse HttpFinal HttpOnce TrimPf HttpMore.
Import ListNotations.
Local Open Scope N_scope.

(** C52: for every cutting of the stream into pieces the reader returns the lines of the stream; it stops with an
    error exactly if what follows the lines is refused, i.e. has no line end within the first [max] bytes (or is
    not UTF-8). *)
Theorem C52_lines :
  forall (max : N) (pieces : list bytes), 0 < max ->
    exists ls tail, List.concat pieces = with_ends ls ++ tail /\ Forall (good_line max) ls /\
      ((deliver (line_decode crlf max) [] [] pieces = (ls, More tail []) /\ cut_line max tail = CMore) \/
       (deliver (line_decode crlf max) [] [] pieces = (ls, Fail) /\ cut_line max tail = CRefused)).
Proof. exact lines_all. Qed.
Print Assumptions C52_lines.

Example C52_case :
  deliver (line_decode crlf 8) [] [] [[97; 13]; [10; 98]; []; [99; 13; 10; 13]; [10; 100; 13]; [100; 100; 100; 100; 100; 100]]
  = ([[97]; [98; 99]; []], Fail).
Proof. vm_compute. reflexivity. Qed.
Example C52_cut :
  cut_line 8 [100; 13; 100; 100; 100; 100; 100; 100] = CRefused /\ cut_line 8 [100; 13; 100] = CMore /\
  cut_line 4 [100; 100; 13; 10; 100] = CLine [100; 100] [100] /\ cut_line 3 [100; 100; 13; 10; 100] = CRefused.
Proof. vm_compute. auto. Qed.

(** C53: the header is the same for every cutting of the stream into pieces. *)
Theorem C53_segmentation :
  forall (lc : bytes -> bytes) (maxlen maxlines : N) (pieces : list bytes), 0 < maxlen ->
    reading (feed (header_decode lc maxlen maxlines) hdec_new [] pieces)
    = header_decode lc maxlen maxlines hdec_new (List.concat pieces).
Proof. exact header_pieces. Qed.
Print Assumptions C53_segmentation.

(** C53: what is returned: protocol, version, code and text of the status line, and the fields of the lines joined
    with their continuations; all data after the empty line is left. *)
Theorem C53_header :
  forall (lc : bytes -> bytes) (maxlen maxlines : N) (p v c r : bytes) (n : N) (ls : list bytes) (rest : bytes) (pieces : list bytes),
    good_status p v c r n -> header_lines maxlen maxlines (status_line p v c r) ls ->
    List.concat pieces = with_ends (status_line p v c r :: ls) ++ [13; 10] ++ rest ->
    reading (feed (header_decode lc maxlen maxlines) hdec_new [] pieces) = Item (header_of lc p v n r (line_fields ls)) hdec_new rest.
Proof. exact header_reading. Qed.
Print Assumptions C53_header.

(** C53: a line with a colon is a field with the text before the first colon as the name. *)
Theorem C53_field :
  forall name value : bytes, ~ In 58 name ->
    field_parse (name ++ [58] ++ value) = {| hf_name := trim name; hf_value := Some (trim value) |}.
Proof. exact field_exact. Qed.
Print Assumptions C53_field.

(** C53: what is trimmed is the white space of Unicode at both ends, and nothing else. *)
Theorem C53_trim :
  forall a b c : list N, Forall space a -> tight b -> Forall space c -> trim (utf8 (a ++ b ++ c)) = utf8 b.
Proof. exact trim_points. Qed.
Print Assumptions C53_trim.

Example C53_trim_case :
  Forall space [32; 8195] /\ tight [97; 32; 233] /\ utf8 [32; 8195] = [32; 226; 128; 131] /\ trim (utf8 [32; 8195; 97; 32; 233; 10]) = [97; 32; 195; 169].
Proof.
  assert (T : tight [97; 32; 233]).
  { split; [repeat constructor|]. split.
    - intros c r E. injection E as <- _. unfold space; lia.
    - intros r c E. destruct r as [|x [|y [|z [|]]]]; cbn in E; try discriminate E. injection E as _ _ <-. unfold space; lia. }
  split; [repeat constructor; unfold space; lia|]. split; [exact T|]. split; reflexivity.
Qed.

(** C53: a line above the limit of lines is refused, whatever it is. *)
Theorem C53_line_limit :
  forall (lc : bytes -> bytes) (maxlen maxlines : N) (p v c r : bytes) (n : N) (ls : list bytes) (l rest : bytes) (pieces : list bytes),
    good_status p v c r n -> good_line maxlen (status_line p v c r) -> Forall (good_line maxlen) ls -> Forall (fun l => l <> []) ls ->
    nlen ls + 1 = maxlines -> good_line maxlen l ->
    List.concat pieces = with_ends (status_line p v c r :: ls ++ [l]) ++ rest ->
    reading (feed (header_decode lc maxlen maxlines) hdec_new [] pieces) = Fail.
Proof. exact header_limit. Qed.
Print Assumptions C53_line_limit.

(** C53: a line that is too long is refused. *)
Theorem C53_long_line :
  forall (lc : bytes -> bytes) (maxlen maxlines : N) (ls : list bytes) (tail : bytes) (pieces : list bytes), 0 < maxlen ->
    match ls with l0 :: _ => exists p v c r n, l0 = status_line p v c r /\ good_status p v c r n | [] => True end ->
    Forall (good_line maxlen) ls -> Forall (fun l => l <> []) (tl ls) -> nlen ls <= maxlines -> cut_line maxlen tail = CRefused ->
    List.concat pieces = with_ends ls ++ tail ->
    reading (feed (header_decode lc maxlen maxlines) hdec_new [] pieces) = Fail.
Proof. exact header_long. Qed.
Print Assumptions C53_long_line.

Example C53_case :
  let p := lit "HTTP"%string in let v := lit "1.1"%string in let c := lit "200"%string in let r := lit " OK"%string in
  let ls := [lit "A: 1"%string; lit "B:2"%string; lit " 3"%string] in
  good_status p v c r 200 /\ header_lines 64 5 (status_line p v c r) ls /\
  line_fields ls = [{| hf_name := lit "A"%string; hf_value := Some (lit "1"%string) |};
                    {| hf_name := lit "B"%string; hf_value := Some (lit "2 3"%string) |}].
Proof.
  cbv zeta. split; [|split; [|vm_compute; reflexivity]].
  - split; [|split; [discriminate|split; [|split; [discriminate|split; [vm_compute; reflexivity|split; [reflexivity|right; eexists; reflexivity]]]]]].
    + vm_compute. intros H. repeat (destruct H as [H|H]; [discriminate|]). exact H.
    + repeat constructor; vm_compute; discriminate.
  - split; [|split; [|split]]; repeat constructor; try discriminate; vm_compute; reflexivity || discriminate.
Qed.

(** C54: a body of announced length [n] consists of the next [n] bytes for every cutting into pieces, and no
    other byte is consumed; until they are there the decoder waits. *)
Theorem C54_exact :
  forall (ignore : bool) (n : N) (pieces : list bytes), pieces <> [] \/ 0 < n ->
    reading (feed (fixed_decode ignore) {| fd_body := Some []; fd_expected := n |} [] pieces) =
    let data := List.concat pieces in
    if n <=? nlen data
    then Item (if ignore then [] else firstn (N.to_nat n) data) {| fd_body := None; fd_expected := 0 |} (skipn (N.to_nat n) data)
    else More {| fd_body := Some (if ignore then [] else data); fd_expected := n - nlen data |} [].
Proof. exact fixed_reading. Qed.
Print Assumptions C54_exact.

(** C54: it is returned once only. *)
Theorem C54_once :
  forall (ignore : bool) (data : bytes), fixed_decode ignore {| fd_body := None; fd_expected := 0 |} data = Fail.
Proof. exact fixed_once. Qed.
Print Assumptions C54_once.

(** C54, whole HTTP responses with a Content-Length *)
Theorem C54_http :
  forall (lc : bytes -> bytes) (bits maxlen maxlines : N) (v c r : bytes) (n : N) (ls : list bytes) (f : hfield) (value body rest : bytes)
         (pieces : list bytes) (closed : bool),
    let p := lit "HTTP"%string in
    good_status p v c r n -> v = lit "1.0"%string \/ v = lit "1.1"%string -> header_lines maxlen maxlines (status_line p v c r) ls ->
    no_body n = false -> newest lc (lit "transfer-encoding"%string) (line_fields ls) = None ->
    newest lc (lit "content-length"%string) (line_fields ls) = Some f -> hf_value f = Some value ->
    value <> [] -> digits_val 10 value 0 = Some (nlen body) -> nlen body < 2 ^ (bits - 1) ->
    List.concat pieces = with_ends (status_line p v c r :: ls) ++ [13; 10] ++ body ++ rest ->
    receive lc bits (http lc bits maxlen maxlines false) pieces closed = Response (header_of lc p v n r (line_fields ls)) body.
Proof. exact http_fixed. Qed.
Print Assumptions C54_http.

(** C54, HTTP responses without a body because of their code *)
Theorem C54_http_empty :
  forall (lc : bytes -> bytes) (bits maxlen maxlines : N) (ignore : bool) (v c r : bytes) (n : N) (ls : list bytes) (rest : bytes)
         (pieces : list bytes) (closed : bool),
    let p := lit "HTTP"%string in
    good_status p v c r n -> v = lit "1.0"%string \/ v = lit "1.1"%string -> header_lines maxlen maxlines (status_line p v c r) ls ->
    no_body n = true -> List.concat pieces = with_ends (status_line p v c r :: ls) ++ [13; 10] ++ rest ->
    receive lc bits (http lc bits maxlen maxlines ignore) pieces closed = Response (header_of lc p v n r (line_fields ls)) [].
Proof. exact http_none. Qed.
Print Assumptions C54_http_empty.

(** C54, HTTP responses without any length: the body ends with the connection. *)
Theorem C54_http_close :
  forall (lc : bytes -> bytes) (bits maxlen maxlines : N) (v c r : bytes) (n : N) (ls : list bytes) (body : bytes) (pieces : list bytes),
    let p := lit "HTTP"%string in
    good_status p v c r n -> v = lit "1.0"%string \/ v = lit "1.1"%string -> header_lines maxlen maxlines (status_line p v c r) ls ->
    no_body n = false -> newest lc (lit "transfer-encoding"%string) (line_fields ls) = None ->
    newest lc (lit "content-length"%string) (line_fields ls) = None ->
    List.concat pieces = with_ends (status_line p v c r :: ls) ++ [13; 10] ++ body ->
    receive lc bits (http lc bits maxlen maxlines false) pieces false = Waiting /\
    receive lc bits (http lc bits maxlen maxlines false) pieces true = Response (header_of lc p v n r (line_fields ls)) body.
Proof. exact http_close. Qed.
Print Assumptions C54_http_close.

(** C54, RTSP responses *)
Theorem C54_rtsp :
  forall (lc : bytes -> bytes) (bits maxlen maxlines : N) (c r : bytes) (n : N) (ls : list bytes) (f : hfield) (value body rest : bytes)
         (pieces : list bytes) (closed : bool),
    let p := lit "RTSP"%string in let v := lit "1.0"%string in
    good_status p v c r n -> header_lines maxlen maxlines (status_line p v c r) ls ->
    newest lc (lit "content-length"%string) (line_fields ls) = Some f -> hf_value f = Some value ->
    value <> [] -> digits_val 10 value 0 = Some (nlen body) -> nlen body < 2 ^ (bits - 1) ->
    List.concat pieces = with_ends (status_line p v c r :: ls) ++ [13; 10] ++ body ++ rest ->
    receive lc bits (rtsp lc bits maxlen maxlines false) pieces closed = Response (header_of lc p v n r (line_fields ls)) body.
Proof. exact rtsp_fixed. Qed.
Print Assumptions C54_rtsp.
Theorem C54_rtsp_empty :
  forall (lc : bytes -> bytes) (bits maxlen maxlines : N) (ignore : bool) (c r : bytes) (n : N) (ls : list bytes) (rest : bytes)
         (pieces : list bytes) (closed : bool),
    let p := lit "RTSP"%string in let v := lit "1.0"%string in
    good_status p v c r n -> header_lines maxlen maxlines (status_line p v c r) ls ->
    newest lc (lit "content-length"%string) (line_fields ls) = None ->
    List.concat pieces = with_ends (status_line p v c r :: ls) ++ [13; 10] ++ rest ->
    receive lc bits (rtsp lc bits maxlen maxlines ignore) pieces closed = Response (header_of lc p v n r (line_fields ls)) [].
Proof. exact rtsp_none. Qed.
Print Assumptions C54_rtsp_empty.

(** C54: a response that is reported is one of the protocol asked for, in a version that is understood. *)
Theorem C54_http_protocol :
  forall (lc : bytes -> bytes) (bits maxlen maxlines : N) (ignore : bool) (pieces : list bytes) (closed : bool) (h : rheader) (b : bytes),
    receive lc bits (http lc bits maxlen maxlines ignore) pieces closed = Response h b ->
    rh_protocol h = lit "HTTP"%string /\ (rh_version h = lit "1.0"%string \/ rh_version h = lit "1.1"%string).
Proof. exact http_protocol. Qed.
Print Assumptions C54_http_protocol.
Theorem C54_rtsp_protocol :
  forall (lc : bytes -> bytes) (bits maxlen maxlines : N) (ignore : bool) (pieces : list bytes) (closed : bool) (h : rheader) (b : bytes),
    receive lc bits (rtsp lc bits maxlen maxlines ignore) pieces closed = Response h b ->
    rh_protocol h = lit "RTSP"%string /\ rh_version h = lit "1.0"%string.
Proof. exact rtsp_protocol. Qed.
Print Assumptions C54_rtsp_protocol.

(** C54: a Content-Length that is no `usize` is an error. *)
Theorem C54_http_over :
  forall (lc : bytes -> bytes) (bits maxlen maxlines : N) (ignore : bool) (v c r : bytes) (n : N) (ls : list bytes) (f : hfield)
         (value : bytes) (m : N) (rest : bytes) (pieces : list bytes) (closed : bool),
    let p := lit "HTTP"%string in
    good_status p v c r n -> header_lines maxlen maxlines (status_line p v c r) ls -> no_body n = false ->
    newest lc (lit "transfer-encoding"%string) (line_fields ls) = None ->
    newest lc (lit "content-length"%string) (line_fields ls) = Some f -> hf_value f = Some value ->
    value <> [] -> digits_val 10 value 0 = Some m -> 2 ^ bits <= m ->
    List.concat pieces = with_ends (status_line p v c r :: ls) ++ [13; 10] ++ rest ->
    receive lc bits (http lc bits maxlen maxlines ignore) pieces closed = Error.
Proof. exact http_over. Qed.
Print Assumptions C54_http_over.
Theorem C54_rtsp_over :
  forall (lc : bytes -> bytes) (bits maxlen maxlines : N) (ignore : bool) (c r : bytes) (n : N) (ls : list bytes) (f : hfield)
         (value : bytes) (m : N) (rest : bytes) (pieces : list bytes) (closed : bool),
    let p := lit "RTSP"%string in let v := lit "1.0"%string in
    good_status p v c r n -> header_lines maxlen maxlines (status_line p v c r) ls ->
    newest lc (lit "content-length"%string) (line_fields ls) = Some f -> hf_value f = Some value ->
    value <> [] -> digits_val 10 value 0 = Some m -> 2 ^ bits <= m ->
    List.concat pieces = with_ends (status_line p v c r :: ls) ++ [13; 10] ++ rest ->
    receive lc bits (rtsp lc bits maxlen maxlines ignore) pieces closed = Error.
Proof. exact rtsp_over. Qed.
Print Assumptions C54_rtsp_over.
Example C54_over_case :
  let lc := map (fun b => if (65 <=? b) && (b <=? 90) then b + 32 else b) in
  let answer n := lit "/1.0 200 OK"%string ++ [13; 10] ++ lit "Content-Length: "%string ++ n ++ [13; 10; 13; 10] in
  receive lc 64 (rtsp lc 64 4096 1024 false) [lit "RTSP"%string ++ answer (lit "18446744073709551616"%string)] false = Error /\
  receive lc 64 (rtsp lc 64 4096 1024 false) [lit "HTTP"%string ++ answer (lit "0"%string)] false = Error /\
  digits_val 10 (lit "18446744073709551616"%string) 0 = Some (2 ^ 64).
Proof. vm_compute. auto. Qed.

Example C54_case :
  let lc := map (fun b => if (65 <=? b) && (b <=? 90) then b + 32 else b) in
  let ls := [lit "Content-Length: 5"%string; lit "CONTENT-length :3"%string] in
  newest lc (lit "transfer-encoding"%string) (line_fields ls) = None /\
  newest lc (lit "content-length"%string) (line_fields ls) = Some {| hf_name := lit "CONTENT-length"%string; hf_value := Some (lit "3"%string) |} /\
  match receive lc 64 (http lc 64 64 16 false)
          [lit "HTTP/1.1 200 OK"%string ++ [13]; [10] ++ with_ends ls ++ [13; 10; 1]; [2]; [3; 4]] false with
  | Response h b => (rh_code h, b) = (200, [1; 2; 3])
  | _ => False
  end.
Proof. vm_compute. auto. Qed.

(** C55: chunks of any sizes with any extensions, the last chunk and any trailer, cut into any pieces: the
    decoder returns the body and leaves what follows. *)
Theorem C55_chunked :
  forall (bits maxlen : N) (ignore : bool) (cs : list chunk) (zero ext : bytes) (trailer : list bytes) (rest : bytes) (pieces : list bytes),
    hexadecimal zero 0 -> chunk_head maxlen zero ext -> Forall (good_line maxlen) trailer -> Forall (fun l => l <> []) trailer ->
    Forall (good_chunk bits maxlen) cs -> List.concat pieces = chunked_bytes cs zero ext trailer ++ rest ->
    reading (feed (chunked_decode bits maxlen ignore) chunked_new [] pieces) =
    Item (if ignore then [] else List.concat (map ck_data cs)) {| cd_state := CCompleted; cd_buf := []; cd_body := []; cd_expected := 0 |} rest.
Proof. exact chunked_reading. Qed.
Print Assumptions C55_chunked.

(** C55: a chunk whose size is no `usize` is an error, whatever precedes it. *)
Theorem C55_over :
  forall (bits maxlen : N) (ignore : bool) (cs : list chunk) (size ext : bytes) (n : N) (rest : bytes) (pieces : list bytes),
    hexadecimal size n -> 2 ^ bits <= n -> chunk_head maxlen size ext -> Forall (good_chunk bits maxlen) cs ->
    List.concat pieces = List.concat (map chunk_bytes cs) ++ size ++ ext ++ [13; 10] ++ rest ->
    reading (feed (chunked_decode bits maxlen ignore) chunked_new [] pieces) = Fail.
Proof. exact chunked_over. Qed.
Print Assumptions C55_over.
Example C55_over_case :
  hexadecimal (lit "10000000000000000"%string) (2 ^ 64) /\
  reading (feed (chunked_decode 64 32 false) chunked_new [] [lit "1;x"%string ++ [13; 10; 7; 13]; [10] ++ lit "10000000000000000"%string ++ [13; 10]]) = Fail.
Proof. vm_compute. split; [split; [discriminate|reflexivity]|reflexivity]. Qed.

(** C55: a body decoder for chunks or for a known length returns at most one body, whether more data follow or the
    stream ends. *)
Theorem C55_once :
  forall (bits maxlen : N) (ignore : bool) (d : bdec) (data b : bytes) (d' : bdec) (rest : bytes),
    (forall t, d <> DSimple t) ->
    body_decode bits maxlen ignore d data = Item b d' rest \/ body_decode_eof bits maxlen ignore d data = Item b d' rest ->
    forall (data' b' : bytes) (d'' : bdec) (rest' : bytes),
      body_decode bits maxlen ignore d' data' <> Item b' d'' rest' /\ body_decode_eof bits maxlen ignore d' data' <> Item b' d'' rest'.
Proof. exact body_once. Qed.
Print Assumptions C55_once.
Example C55_once_case :
  let d' := DChunked {| cd_state := CCompleted; cd_buf := []; cd_body := []; cd_expected := 0 |} in
  body_decode 64 32 false (DChunked chunked_new) (lit "1"%string ++ [13; 10; 7; 13; 10] ++ lit "0"%string ++ [13; 10; 13; 10; 9]) = Item [7] d' [9] /\
  body_decode_eof 64 32 false d' [] = Fail.
Proof. vm_compute. split; reflexivity. Qed.

(** C55, whole responses *)
Theorem C55_http :
  forall (lc : bytes -> bytes) (bits maxlen maxlines : N) (v c r : bytes) (n : N) (ls : list bytes) (f : hfield) (cs : list chunk)
         (zero ext : bytes) (trailer : list bytes) (rest : bytes) (pieces : list bytes) (closed : bool),
    let p := lit "HTTP"%string in
    good_status p v c r n -> v = lit "1.0"%string \/ v = lit "1.1"%string -> header_lines maxlen maxlines (status_line p v c r) ls ->
    no_body n = false -> newest lc (lit "transfer-encoding"%string) (line_fields ls) = Some f ->
    (exists value, hf_value f = Some value /\ lc value = lit "chunked"%string) ->
    hexadecimal zero 0 -> chunk_head maxlen zero ext -> Forall (good_line maxlen) trailer -> Forall (fun l => l <> []) trailer ->
    Forall (good_chunk bits maxlen) cs ->
    List.concat pieces = with_ends (status_line p v c r :: ls) ++ [13; 10] ++ chunked_bytes cs zero ext trailer ++ rest ->
    receive lc bits (http lc bits maxlen maxlines false) pieces closed = Response (header_of lc p v n r (line_fields ls)) (List.concat (map ck_data cs)).
Proof. exact http_chunked. Qed.
Print Assumptions C55_http.

Example C55_case :
  let cs := [{| ck_size := lit "3"%string; ck_ext := lit ";a=b"%string; ck_data := [13; 10; 48] |};
             {| ck_size := lit "00a"%string; ck_ext := []; ck_data := [1; 2; 3; 4; 5; 6; 7; 8; 9; 10] |}] in
  Forall (good_chunk 64 32) cs /\ hexadecimal (lit "00"%string) 0 /\ chunk_head 32 (lit "00"%string) (lit ";x"%string) /\
  Forall (good_line 32) [lit "T: 1"%string] /\
  List.concat (map ck_data cs) = [13; 10; 48; 1; 2; 3; 4; 5; 6; 7; 8; 9; 10].
Proof.
  assert (L : forall l, first_line (l ++ [13; 10]) = Some (l, []) -> nlen l + 2 <=? 32 = true -> utf8_valid l = true -> good_line 32 l).
  { intros l H1 H2 H3. split; [exact H1|split; [now apply N.leb_le|exact H3]]. }
  cbv zeta. split; [|split; [|split; [|split]]].
  - apply Forall_cons; [|apply Forall_cons; [|apply Forall_nil]]; (split; [split; [discriminate|vm_compute; reflexivity]|]; split; [discriminate|]; split;
      [vm_compute; reflexivity|]; split); cbn [ck_size ck_ext].
    + right. eexists. reflexivity.
    + apply L; vm_compute; reflexivity.
    + left. reflexivity.
    + apply L; vm_compute; reflexivity.
  - split; [discriminate|vm_compute; reflexivity].
  - split; [right; eexists; reflexivity|]. apply L; vm_compute; reflexivity.
  - apply Forall_cons; [|apply Forall_nil]. apply L; vm_compute; reflexivity.
  - vm_compute. reflexivity.
Qed.

(** C56, refuted: a response with a Content-Length above `isize::MAX` makes the client panic, for both protocols and
    all limits that let the header through. *)
Theorem C56_http_refuted :
  forall (lc : bytes -> bytes) (bits maxlen maxlines : N) (v c r : bytes) (n : N) (ls : list bytes) (f : hfield) (value : bytes) (m : N)
         (rest : bytes) (pieces : list bytes) (closed : bool),
    let p := lit "HTTP"%string in
    good_status p v c r n -> header_lines maxlen maxlines (status_line p v c r) ls -> no_body n = false ->
    newest lc (lit "transfer-encoding"%string) (line_fields ls) = None ->
    newest lc (lit "content-length"%string) (line_fields ls) = Some f -> hf_value f = Some value ->
    value <> [] -> digits_val 10 value 0 = Some m -> 2 ^ (bits - 1) <= m < 2 ^ bits ->
    List.concat pieces = with_ends (status_line p v c r :: ls) ++ [13; 10] ++ rest ->
    receive lc bits (http lc bits maxlen maxlines false) pieces closed = Panic.
Proof. exact http_panics. Qed.
Print Assumptions C56_http_refuted.
Theorem C56_rtsp_refuted :
  forall (lc : bytes -> bytes) (bits maxlen maxlines : N) (c r : bytes) (n : N) (ls : list bytes) (f : hfield) (value : bytes) (m : N)
         (rest : bytes) (pieces : list bytes) (closed : bool),
    let p := lit "RTSP"%string in let v := lit "1.0"%string in
    good_status p v c r n -> header_lines maxlen maxlines (status_line p v c r) ls ->
    newest lc (lit "content-length"%string) (line_fields ls) = Some f -> hf_value f = Some value ->
    value <> [] -> digits_val 10 value 0 = Some m -> 2 ^ (bits - 1) <= m < 2 ^ bits ->
    List.concat pieces = with_ends (status_line p v c r :: ls) ++ [13; 10] ++ rest ->
    receive lc bits (rtsp lc bits maxlen maxlines false) pieces closed = Panic.
Proof. exact rtsp_panics. Qed.
Print Assumptions C56_rtsp_refuted.

Example C56_case :
  let lc := map (fun b => if (65 <=? b) && (b <=? 90) then b + 32 else b) in
  let answer := lit "/1.0 200 OK"%string ++ [13; 10] ++ lit "Content-Length: 9223372036854775808"%string ++ [13; 10; 13; 10] in
  receive lc 64 (http lc 64 4096 1024 false) [lit "HTTP"%string ++ answer] false = Panic /\
  receive lc 64 (rtsp lc 64 4096 1024 false) [lit "RTSP"%string ++ answer] false = Panic.
Proof. vm_compute. auto. Qed.

(** C56: nothing else does, and nothing at all if the body is ignored. *)
Theorem C56_http_partial :
  forall (lc : bytes -> bytes) (bits maxlen maxlines : N) (ignore : bool) (pieces : list bytes) (closed : bool), 0 < maxlen ->
    receive lc bits (http lc bits maxlen maxlines ignore) pieces closed = Panic ->
    ignore = false /\ exists h rest f, header_decode lc maxlen maxlines hdec_new (List.concat pieces) = Item h hdec_new rest /\
      last_field lc (lit "content-length"%string) h = Some f /\ too_long bits f.
Proof. exact http_panic. Qed.
Print Assumptions C56_http_partial.
Theorem C56_rtsp_partial :
  forall (lc : bytes -> bytes) (bits maxlen maxlines : N) (ignore : bool) (pieces : list bytes) (closed : bool), 0 < maxlen ->
    receive lc bits (rtsp lc bits maxlen maxlines ignore) pieces closed = Panic ->
    ignore = false /\ exists h rest f, header_decode lc maxlen maxlines hdec_new (List.concat pieces) = Item h hdec_new rest /\
      last_field lc (lit "content-length"%string) h = Some f /\ too_long bits f.
Proof. exact rtsp_panic. Qed.
Print Assumptions C56_rtsp_partial.

(** C57: after any operations a lookup returns the fields with that name in order. *)
Theorem C57_lookup :
  forall (lc : bytes -> bytes) (os : list fop) (name : bytes),
    fields_get lc name (fields_of lc os) = filter (same_name lc name) (listed lc os) /\ f_list (fields_of lc os) = listed lc os.
Proof. exact fields_lookup_all. Qed.
Print Assumptions C57_lookup.

(** C57: a request lists all fields in order. *)
Theorem C57_request :
  forall (lc : bytes -> bytes) (os : list fop) (method path protocol version : bytes),
    request_text method path protocol version (fields_of lc os) =
    with_ends ((method ++ [32] ++ path ++ [32] ++ protocol ++ [47] ++ version) :: map field_text (listed lc os)) ++ [13; 10].
Proof. exact request_rendered. Qed.
Print Assumptions C57_request.

Example C57_case :
  let lc := map (fun b => if (65 <=? b) && (b <=? 90) then b + 32 else b) in
  let f n v := {| hf_name := lit n; hf_value := Some (lit v) |} in
  let os := [FAdd (f "A" "1"); FAdd (f "b" "2"); FAdd (f "a" "3"); FSet (f "B" "4"); FAdd (f "A" "5")]%string in
  listed lc os = [f "A" "1"; f "a" "3"; f "B" "4"; f "A" "5"]%string /\
  fields_get lc (lit "a"%string) (fields_of lc os) = [f "A" "1"; f "a" "3"; f "A" "5"]%string.
Proof. vm_compute. auto. Qed.

(** C74: the result of a request does not depend on how the response arrives. *)
Theorem C74_segmentation :
  forall (lc : bytes -> bytes) (bits maxlen maxlines : N) (ignore : bool) (p1 p2 : list bytes) (closed : bool), 0 < maxlen ->
    List.concat p1 = List.concat p2 ->
    receive lc bits (http lc bits maxlen maxlines ignore) p1 closed = receive lc bits (http lc bits maxlen maxlines ignore) p2 closed /\
    receive lc bits (rtsp lc bits maxlen maxlines ignore) p1 closed = receive lc bits (rtsp lc bits maxlen maxlines ignore) p2 closed.
Proof. exact http_segmentation. Qed.
Print Assumptions C74_segmentation.

Example C74_case :
  let lc := map (fun b => if (65 <=? b) && (b <=? 90) then b + 32 else b) in
  let answer := lit "HTTP/1.1 200 OK"%string ++ [13; 10] ++ lit "Transfer-Encoding: Chunked"%string ++ [13; 10; 13; 10; 50; 13; 10; 7; 8; 13; 10; 48; 13; 10; 13; 10; 9] in
  match receive lc 64 (http lc 64 4096 1024 false) [answer] false, receive lc 64 (http lc 64 4096 1024 false) (map (fun b => [b]) answer) false with
  | Response _ b1, Response _ b2 => b1 = [7; 8] /\ b2 = [7; 8]
  | _, _ => False
  end.
Proof. vm_compute. auto. Qed.
