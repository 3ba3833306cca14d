(** The sizes of Model/Memory.v are the lengths of the texts. *)
From Coq Require Import NArith List Bool Lia.
From Verif.Model Require Import Bytes Http Memory.
From Verif.Spec Require Import ResponseSpec.
From Verif.Proofs Require Import ResponseMem.
Import ListNotations.
Local Open Scope N_scope.

Lemma total_app a b : total (a ++ b) = total a + total b.
Proof. unfold total. rewrite concat_app, app_length. lia. Qed.
Lemma total_cons a l : total (a :: l) = nlen a + total l.
Proof. unfold total, nlen. cbn [List.concat]. rewrite app_length. lia. Qed.
Lemma header_counted h : total (header_texts h) = header_size h.
Proof.
  unfold header_texts, header_size. cbn [app]. rewrite !total_cons. rewrite !N.add_assoc. f_equal. unfold fields_size.
  induction (f_list (rh_fields h)) as [|f l IH]; [reflexivity|]. cbn [map List.concat fold_right app]. rewrite !total_cons, IH. unfold field_size.
  destruct (hf_value f); unfold nlen; cbn [List.length]; lia.
Qed.
Lemma counted s : total (kept_texts s) = codec_size s.
Proof.
  unfold kept_texts, codec_size, hdec_size. cbn [app]. rewrite !total_cons, !total_app.
  replace (total match hd_header (cc_hdec s) with Some h => header_texts h | None => [] end) with (option_size (hd_header (cc_hdec s)))
    by (destruct (hd_header (cc_hdec s)); [symmetry; apply header_counted|reflexivity]).
  replace (total match cc_header s with Some h => header_texts h | None => [] end) with (option_size (cc_header s))
    by (destruct (cc_header s); [symmetry; apply header_counted|reflexivity]).
  replace (total match cc_bdec s with Some (DChunked d) => [cd_buf d] | _ => [] end) with (match cc_bdec s with Some d => bdec_buffer d | None => 0 end)
    by (destruct (cc_bdec s) as [[]|]; try reflexivity; cbn [bdec_buffer]; rewrite total_cons; change (total []) with 0; lia).
  lia.
Qed.

Lemma http_kept lc bits maxlen maxlines ignore pieces s rest ps : 0 < maxlen ->
  feed (codec_decode lc bits (http lc bits maxlen maxlines ignore)) codec_new [] pieces = (More s rest, ps) ->
  rest = [] /\ total (kept_texts s) < maxlen * (maxlines + 1) /\ (ignore = true -> codec_room true s = 0).
Proof. rewrite counted. apply http_bounded. Qed.
Lemma rtsp_kept lc bits maxlen maxlines ignore pieces s rest ps : 0 < maxlen ->
  feed (codec_decode lc bits (rtsp lc bits maxlen maxlines ignore)) codec_new [] pieces = (More s rest, ps) ->
  rest = [] /\ total (kept_texts s) < maxlen * (maxlines + 1) /\ (ignore = true -> codec_room true s = 0).
Proof. rewrite counted. apply rtsp_bounded. Qed.
Lemma http_given_texts lc bits maxlen maxlines ignore pieces closed h b :
  0 < maxlen -> receive lc bits (http lc bits maxlen maxlines ignore) pieces closed = Response h b ->
  total (header_texts h) <= maxlen * maxlines /\ nlen (f_list (rh_fields h)) <= maxlines /\ (ignore = true -> b = []).
Proof. rewrite header_counted. apply http_given. Qed.
Lemma rtsp_given_texts lc bits maxlen maxlines ignore pieces closed h b :
  0 < maxlen -> receive lc bits (rtsp lc bits maxlen maxlines ignore) pieces closed = Response h b ->
  total (header_texts h) <= maxlen * maxlines /\ nlen (f_list (rh_fields h)) <= maxlines /\ (ignore = true -> b = []).
Proof. rewrite header_counted. apply rtsp_given. Qed.
