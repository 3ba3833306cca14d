(** Properties of session descriptions: C56 (descriptions), C58, C75 and C76.

    [sdp_parse ovf lossy lc s] is the parsed description; [ovf] tells that overflow checks are compiled in, [lossy] and
    [lc] are `String::from_utf8_lossy` and `str::to_lowercase`. [says cut ovf lossy lc ls d] (Spec/SdpSpec.v): the version of [d]
    is the one of the last `v=` line, and its media descriptions are those of the `m=` lines in order, each with the
    attributes of the `a=` lines in the part of its section given by [cut]. *)
From Coq Require Import String NArith ZArith List Bool.
From Verif.Model Require Import Bytes Text Http Sdp.
From Verif.Spec Require Import HttpSpec SdpSpec.
From Verif.Proofs Require Import SdpLines SdpText SdpFinal.
Import ListNotations.
Local Open Scope N_scope.

(** C58 does not hold: an attribute that follows a `t=` line in a media section is dropped. *)
Theorem C58_attributes_refuted :
  exists s, Forall (fun l => nlen l < LINE_LIMIT) (lines s) /\ (exists d, sdp_parse true same lowers s = ROk d) /\
    forall d, sdp_parse true same lowers s = ROk d -> ~ says whole true same lowers (lines s) d.
Proof. exact late_time_lost. Qed.
Print Assumptions C58_attributes_refuted.

(** C58: without `t=` lines after `m=` lines (RFC 4566 allows none there) the parser returns exactly what the lines say. *)
Theorem C58_attributes_partial :
  forall (ovf : bool) (lossy lc : bytes -> bytes) (s : bytes) (d : sdp),
    Forall (fun l => nlen l < LINE_LIMIT) (lines s) ->
    Forall (fun x => existsb (of_type 116) (snd x) = false) (sections (lines s)) ->
    sdp_parse ovf lossy lc s = ROk d <-> says whole ovf lossy lc (lines s) d.
Proof. exact sections_recognised. Qed.
Print Assumptions C58_attributes_partial.

(** C58: the exact behaviour for every description: the attributes up to the first `t=` line of a section. *)
Theorem C58_exact :
  forall (ovf : bool) (lossy lc : bytes -> bytes) (s : bytes) (d : sdp),
    sdp_parse ovf lossy lc s = ROk d <-> fits LINE_LIMIT 0 s = true /\ says until_time ovf lossy lc (lines s) d.
Proof. exact parse_says. Qed.
Print Assumptions C58_exact.

(** C58: one media description per `m=` line, in order, in every description. *)
Theorem C58_media :
  forall (ovf : bool) (lossy lc : bytes -> bytes) (s : bytes) (d : sdp), sdp_parse ovf lossy lc s = ROk d ->
    Forall2 (fun l m => media_line ovf lossy lc l = ROk (with_attrs m [])) (filter (of_type 109) (lines s)) (sd_media d).
Proof. exact media_count. Qed.
Print Assumptions C58_media.

(** C58: what a media line means. *)
Theorem C58_media_line :
  forall (ovf : bool) (lossy lc : bytes -> bytes) (line t p : bytes) (v : N) (nb : option bytes) (n : option N) (proto : bytes) (fmts : list bytes),
    word t -> p <> [] -> digits_val 10 p 0 = Some v -> v < 2 ^ 16 -> nb_value nb n -> word proto -> hd 0 proto <> 47 -> Forall word fmts ->
    lossy line = lit "m="%string ++ t ++ [32] ++ p ++ ports nb ++ [32] ++ proto ++ List.concat (map (fun x => 32 :: x) fmts) ->
    media_line ovf lossy lc line =
    ROk {| md_type := mtype_of lc t; md_port := v; md_nb := n; md_protocol := proto; md_formats := fmts; md_attrs := [] |}.
Proof. exact media_exact. Qed.
Print Assumptions C58_media_line.

(** C58: what an attribute line means. *)
Theorem C58_attribute_line :
  forall (lossy : bytes -> bytes) (line name value : bytes), visible (hd 0 name) -> ~ In 58 name ->
    (lossy line = lit "a="%string ++ name ++ [58] ++ value ->
     attribute_line lossy line = ROk {| at_name := trim name; at_value := Some (trim value) |}) /\
    (lossy line = lit "a="%string ++ name -> attribute_line lossy line = ROk {| at_name := trim name; at_value := None |}).
Proof. exact (fun lossy line name value H1 H2 => conj (attribute_exact lossy line name value H1 H2) (attribute_plain lossy line name H1 H2)). Qed.
Print Assumptions C58_attribute_line.

(** C58: what a version line means: versions of 2^31 and more become negative. *)
Theorem C58_version_line :
  forall (ovf : bool) (lossy : bytes -> bytes) (line d : bytes) (v : N) (rest : bytes),
    d <> [] -> digits_val 10 d 0 = Some v -> v < 2 ^ 32 -> no_digit rest -> lossy line = lit "v="%string ++ d ++ rest ->
    version_line ovf lossy line = ROk (if v <? 2 ^ 31 then Z.of_N v else (Z.of_N v - 2 ^ 32)%Z).
Proof. exact version_exact. Qed.
Print Assumptions C58_version_line.

(** C58: the kinds of media, whatever the case of their names. *)
Theorem C58_media_kind :
  forall (lc : bytes -> bytes) (s : bytes),
    (forall n t, In (n, t) media_names -> (mtype_of lc s = t <-> lc s = lit n)) /\
    ((forall n t, In (n, t) media_names -> lc s <> lit n) -> mtype_of lc s = MOther s).
Proof. exact media_kind. Qed.
Print Assumptions C58_media_kind.
Example C58_kind_case :
  mtype_of lowers (lit "Video"%string) = MVideo /\ mtype_of lowers (lit "Data"%string) = MOther (lit "Data"%string) /\
  version_line true same (lit "v=0 "%string) = ROk 0%Z /\ of_type 109 (lit "  m=video 1 RTP/AVP 99"%string) = true.
Proof. vm_compute. auto. Qed.

(** C58: CR, LF and CR LF can be mixed; empty lines and lines of white space do not matter. *)
Theorem C58_line_ends :
  forall ls tail, Forall (fun x => unbroken (fst x) /\ an_end (snd x)) ls -> unbroken tail ->
    filter nonempty (lines (List.concat (map (fun x => fst x ++ snd x) ls) ++ tail)) = filter nonempty (map fst ls ++ [tail]).
Proof. exact lines_ends. Qed.
Print Assumptions C58_line_ends.
Theorem C58_blank_lines :
  forall (ovf : bool) (lossy lc : bytes -> bytes) (s1 s2 : bytes), fits LINE_LIMIT 0 s1 = true -> fits LINE_LIMIT 0 s2 = true ->
    filter some_text (lines s1) = filter some_text (lines s2) -> sdp_parse ovf lossy lc s1 = sdp_parse ovf lossy lc s2.
Proof. exact same_text. Qed.
Print Assumptions C58_blank_lines.

(** C58: a line longer than the limit is refused. *)
Theorem C58_long_line :
  forall (ovf : bool) (lossy lc : bytes -> bytes) (s : bytes),
    Exists (fun l => LINE_LIMIT < nlen l) (lines s) -> forall d, sdp_parse ovf lossy lc s <> ROk d.
Proof. exact too_long. Qed.
Print Assumptions C58_long_line.

Example C58_case :
  sdp_parse true same lowers example_sdp = ROk {| sd_version := 0; sd_media :=
  [ {| md_type := MAudio; md_port := 49170; md_nb := Some 2; md_protocol := lit "RTP/AVP"%string; md_formats := [lit "0"%string];
       md_attrs := [{| at_name := lit "sendonly"%string; at_value := None |}] |};
    {| md_type := MVideo; md_port := 51372; md_nb := None; md_protocol := lit "RTP/AVP"%string; md_formats := [lit "99"; lit "100"]%string;
       md_attrs := [{| at_name := lit "rtpmap"%string; at_value := Some (lit "99 h264/90000"%string) |}] |} ] |}.
Proof. exact example_parse. Qed.
Example C58_case_hyps :
  forallb (fun l => nlen l <? LINE_LIMIT) (lines example_sdp) = true /\
  forallb (fun x => negb (existsb (of_type 116) (snd x))) (sections (lines example_sdp)) = true /\
  length (sections (lines example_sdp)) = 2%nat /\ fits LINE_LIMIT 0 example_sdp = true.
Proof. vm_compute. auto. Qed.
Example C58_limit_case :
  fits 3 0 [97; 98; 99] = true /\ fits 3 0 [97; 98; 99; 10] = false /\ fits 3 0 [97; 98; 10; 97] = true.
Proof. vm_compute. auto. Qed.

(** C56 does not hold for descriptions when overflow checks are compiled in: a number of 2^32 or more panics. *)
Theorem C56_sdp_refuted :
  forall lossy lc : bytes -> bytes, (forall s, lossy s = s) -> exists s, sdp_parse true lossy lc s = RPanic.
Proof. exact overflow_panics. Qed.
Print Assumptions C56_sdp_refuted.
(** Also if it is in an attribute, which is read only when the encodings are. *)
Theorem C56_stream_refuted :
  exists s d, sdp_parse true same lowers s = ROk d /\ is_supported_rtsp true same lowers upper s = RPanic /\
    rtsp_stream_type true same lowers upper 200 s = RPanic.
Proof. exact stream_overflow. Qed.
Print Assumptions C56_stream_refuted.
(** C56: without overflow checks (release builds) no description panics. *)
Theorem C56_sdp_partial :
  forall (lossy lc : bytes -> bytes) (s : bytes), sdp_parse false lossy lc s <> RPanic.
Proof. exact (fun lossy lc s => parse_safe lossy lc same s). Qed.
Print Assumptions C56_sdp_partial.

(** C75 does not hold: for every [n] there is a description of 2 n bytes for which n loops are nested. *)
Theorem C75_depth_refuted :
  forall (ovf : bool) (lossy lc : bytes -> bytes) (n : N), exists s, nlen s = 2 * n /\ sdp_run ovf lossy lc s = ROk (sdp_new, [], n).
Proof. exact time_depth. Qed.
Print Assumptions C75_depth_refuted.
(** C75: the number of nested loops is the number of `m=` and `t=` lines, and the whole description is read. *)
Theorem C75_depth_partial :
  forall (ovf : bool) (lossy lc : bytes -> bytes) (s : bytes) (d : sdp) (rest : bytes) (n : N),
    sdp_run ovf lossy lc s = ROk (d, rest, n) ->
    rest = [] /\ n = nlen (filter (fun l => of_type 109 l || of_type 116 l) (lines s)).
Proof. exact parse_rest. Qed.
Print Assumptions C75_depth_partial.
Example C75_case : match sdp_run true same lowers example_sdp with ROk (_, r, n) => r = [] /\ n = 3 | _ => False end.
Proof. vm_compute. auto. Qed.

(** C76: a description is accepted exactly if it is readable and a video section has an rtpmap attribute with one of the
    supported codecs (release builds). *)
Theorem C76_supported :
  forall (lossy lc uc : bytes -> bytes) (s : bytes), exists b, is_supported_rtsp false lossy lc uc s = ROk b /\
    (b = true <-> exists d m a e, sdp_parse false lossy lc s = ROk d /\ In m (sd_media d) /\ md_type m = MVideo /\ In a (md_attrs m)
       /\ rtpmap_of false lc a = ROk e /\ In (uc e) supported_codecs).
Proof. exact supported_iff. Qed.
Print Assumptions C76_supported.
(** C76: the encoding named by an rtpmap attribute. *)
Theorem C76_rtpmap :
  forall (ovf : bool) (pt : bytes) (v : N) (enc clock : bytes) (w : N) (params : bytes),
    pt <> [] -> digits_val 10 pt 0 = Some v -> v < 2 ^ 32 -> word enc -> ~ In 47 enc ->
    clock <> [] -> digits_val 10 clock 0 = Some w -> w < 2 ^ 32 -> (params = [] \/ exists r, params = 47 :: r /\ word r) ->
    rtpmap_parse ovf (pt ++ [32] ++ enc ++ [47] ++ clock ++ params) = ROk enc.
Proof. exact rtpmap_exact. Qed.
Print Assumptions C76_rtpmap.
(** C76: which attributes name an encoding. *)
Theorem C76_rtpmap_name :
  forall (ovf : bool) (lc : bytes -> bytes) (a : attribute) (e : bytes), rtpmap_of ovf lc a = ROk e <->
    lc (at_name a) = lit "rtpmap"%string /\ exists v, at_value a = Some v /\ rtpmap_parse ovf v = ROk e.
Proof. exact rtpmap_name. Qed.
Print Assumptions C76_rtpmap_name.
(** C76: an HTTP response is a stream of pictures exactly if the value of its last Content-Type field begins with one of the
    supported types, whatever the case. *)
Theorem C76_pictures :
  forall (lc : bytes -> bytes) (os : list fop) (h : rheader), rh_fields h = fields_of lc os ->
    (is_supported_mjpeg lc h = true <-> exists t r, In t picture_types /\ lc (content_type lc (listed lc os)) = t ++ r).
Proof. exact pictures. Qed.
Print Assumptions C76_pictures.
Example C76_pictures_case :
  is_supported_mjpeg lowers {| rh_protocol := []; rh_version := []; rh_code := 200; rh_line := [];
    rh_fields := fields_of lowers [FAdd {| hf_name := lit "CONTENT-Type"; hf_value := Some (lit "Image/JPG; x") |}]%string |} = true.
Proof. reflexivity. Qed.
Example C76_case :
  is_supported_rtsp false same lowers upper example_sdp = ROk true /\ is_supported_rtsp false same lowers upper late_time = ROk false /\
  rtsp_stream_type false same lowers upper 200 example_sdp = ROk SSupported /\ rtsp_stream_type false same lowers upper 401 [] = ROk SLocked.
Proof. vm_compute. auto. Qed.
