(** C134: the memory used for a response. *)
From Coq Require Import String NArith List Bool.
From Verif.Model Require Import Bytes Utf8 Text Http Memory.
From Verif.Spec Require Import HttpSpec ResponseSpec.
From Verif.Proofs Require Import ResponseMem ResponseMem2.
Import ListNotations.
Local Open Scope N_scope.
Local Open Scope list_scope.

(** C134: whatever a server sends and in whatever pieces, the decoder keeps less than (lines + 1) lines of the maximal
    length besides the body, and nothing of a body that is ignored. *)
Theorem C134_http_partial :
  forall (lc : bytes -> bytes) (bits maxlen maxlines : N) (ignore : bool) (pieces : list bytes) (s : codec) (rest : bytes) (ps : list bytes),
    0 < maxlen ->
    feed (codec_decode lc bits (http lc bits maxlen maxlines ignore)) codec_new [] pieces = (More s rest, ps) ->
    rest = [] /\ total (kept_texts s) < maxlen * (maxlines + 1) /\ (ignore = true -> codec_room true s = 0).
Proof. exact http_kept. Qed.
Print Assumptions C134_http_partial.
Theorem C134_rtsp_partial :
  forall (lc : bytes -> bytes) (bits maxlen maxlines : N) (ignore : bool) (pieces : list bytes) (s : codec) (rest : bytes) (ps : list bytes),
    0 < maxlen ->
    feed (codec_decode lc bits (rtsp lc bits maxlen maxlines ignore)) codec_new [] pieces = (More s rest, ps) ->
    rest = [] /\ total (kept_texts s) < maxlen * (maxlines + 1) /\ (ignore = true -> codec_room true s = 0).
Proof. exact rtsp_kept. Qed.
Print Assumptions C134_rtsp_partial.

Example C134_state :
  let lc := map (fun b => if (65 <=? b) && (b <=? 90) then b + 32 else b) in
  let start := lit "HTTP/1.1 200 OK"%string ++ [13; 10] ++ lit "Transfer-Encoding: chunked"%string ++ [13; 10; 13; 10] in
  match feed (codec_decode lc 64 (http lc 64 4096 1024 true)) codec_new [] [start; lit "5"%string ++ [13; 10] ++ lit "hello"%string ++ [13; 10] ++ lit "12"%string] with
  | (More s rest, _) => total (kept_texts s) = 35 /\ codec_room true s = 0 /\ rest = []
  | _ => False
  end.
Proof. vm_compute. auto. Qed.

(** C134: the header handed over is within the limits, and the body is empty if it is ignored. *)
Theorem C134_http_response :
  forall (lc : bytes -> bytes) (bits maxlen maxlines : N) (ignore : bool) (pieces : list bytes) (closed : bool) (h : rheader) (b : bytes),
    0 < maxlen -> receive lc bits (http lc bits maxlen maxlines ignore) pieces closed = Response h b ->
    total (header_texts h) <= maxlen * maxlines /\ nlen (f_list (rh_fields h)) <= maxlines /\ (ignore = true -> b = []).
Proof. exact http_given_texts. Qed.
Print Assumptions C134_http_response.
Theorem C134_rtsp_response :
  forall (lc : bytes -> bytes) (bits maxlen maxlines : N) (ignore : bool) (pieces : list bytes) (closed : bool) (h : rheader) (b : bytes),
    0 < maxlen -> receive lc bits (rtsp lc bits maxlen maxlines ignore) pieces closed = Response h b ->
    total (header_texts h) <= maxlen * maxlines /\ nlen (f_list (rh_fields h)) <= maxlines /\ (ignore = true -> b = []).
Proof. exact rtsp_given_texts. Qed.
Print Assumptions C134_rtsp_response.

Example C134_answer :
  let lc := map (fun b => if (65 <=? b) && (b <=? 90) then b + 32 else b) in
  let answer := lit "/1.0 200 OK"%string ++ [13; 10] ++ lit "Content-Length: 5"%string ++ [13; 10; 13; 10] ++ lit "hello"%string in
  (exists h, receive lc 64 (http lc 64 4096 1024 true) [lit "HTTP"%string ++ answer] false = Response h [] /\ total (header_texts h) = 24) /\
  (exists h, receive lc 64 (rtsp lc 64 4096 1024 false) [lit "RTSP"%string ++ answer] false = Response h (lit "hello"%string) /\ total (header_texts h) = 24).
Proof. cbv zeta. split; eexists; split; vm_compute; reflexivity. Qed.

(** C134, refuted for bodies that are read: a header alone makes the client take as much memory as it announces,
    any number up to `isize::MAX`, before the first byte of the body. The request DESCRIBE reads its body. *)
Theorem C134_room_refuted :
  forall (lc : bytes -> bytes) (bits maxlen maxlines : N) (c r : bytes) (n : N) (ls : list bytes) (f : hfield) (value : bytes) (m : N)
         (pieces : list bytes),
    let p := lit "RTSP"%string in let v := lit "1.0"%string in
    good_status p v c r n -> header_lines maxlen maxlines (status_line p v c r) ls ->
    newest lc (lit "content-length"%string) (line_fields ls) = Some f -> hf_value f = Some value ->
    value <> [] -> digits_val 10 value 0 = Some m -> 0 < m < 2 ^ (bits - 1) ->
    List.concat pieces = with_ends (status_line p v c r :: ls) ++ [13; 10] ->
    exists s ps, feed (codec_decode lc bits (rtsp lc bits maxlen maxlines false)) codec_new [] pieces = (More s [], ps) /\
      codec_room false s = m.
Proof. exact rtsp_reserves. Qed.
Print Assumptions C134_room_refuted.

Example C134_case :
  let lc := map (fun b => if (65 <=? b) && (b <=? 90) then b + 32 else b) in
  let answer := lit "RTSP/1.0 200 OK"%string ++ [13; 10] ++ lit "Content-Length: 9223372036854775807"%string ++ [13; 10; 13; 10] in
  nlen answer = 56 /\
  match feed (codec_decode lc 64 (rtsp lc 64 4096 1024 false)) codec_new [] [answer] with
  | (More s rest, _) => codec_room false s = 2 ^ 63 - 1 /\ rest = []
  | _ => False
  end.
Proof. vm_compute. auto. Qed.

(** C134: and never more than it announces. *)
Theorem C134_room :
  forall (lc : bytes -> bytes) (bits maxlen maxlines : N) (pieces : list bytes) (s : codec) (rest : bytes) (ps : list bytes),
    0 < maxlen ->
    feed (codec_decode lc bits (rtsp lc bits maxlen maxlines false)) codec_new [] pieces = (More s rest, ps) ->
    codec_room false s = 0 \/
    exists h f value m, cc_header s = Some h /\ last_field lc (lit "content-length"%string) h = Some f /\ hf_value f = Some value /\
      parse_uint 10 (usize_max bits) value = Some m /\ codec_room false s = m /\ m < 2 ^ (bits - 1).
Proof. exact rtsp_room. Qed.
Print Assumptions C134_room.
