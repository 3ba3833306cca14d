(** Session descriptions: line ends, sections without time lines, depth and examples. *)
From Coq Require Import String NArith ZArith List Bool Lia ZifyBool ZifyNat ZifyN.
From Verif.Model Require Import Bytes Text Http Sdp.
From Verif.Spec Require Import HttpSpec SdpSpec.
From Verif.Proofs Require Import BytesFacts HttpExact HttpFinal SdpLines SdpText.
Import ListNotations.
Local Open Scope N_scope.

(** ** Line ends *)
Definition nonempty (l : bytes) : bool := match l with [] => false | _ => true end.

Section Ends.
  Variable ovf : bool.
  Variables lossy lc : bytes -> bytes.

  Lemma flat_blank : forall ls l d, flat ovf lossy lc l d ls = flat ovf lossy lc l d (filter some_text ls).
  Proof.
    induction ls as [|x ls IH]; intros l d; [reflexivity|].
    cbn [filter]. destruct (some_text x) eqn:E.
    - cbn [flat]. destruct (step ovf lossy lc l d x) as [[[l1 d1] n1]| |]; try reflexivity. now rewrite IH.
    - cbn [flat]. unfold step. rewrite some_text_first in E. destruct (first_char x); [discriminate|].
      rewrite IH. destruct (flat ovf lossy lc l d (filter some_text ls)) as [[? ?]| |]; reflexivity.
  Qed.
  Lemma same_text : forall s1 s2, fits LINE_LIMIT 0 s1 = true -> fits LINE_LIMIT 0 s2 = true ->
    filter some_text (lines s1) = filter some_text (lines s2) -> sdp_parse ovf lossy lc s1 = sdp_parse ovf lossy lc s2.
  Proof.
    intros s1 s2 F1 F2 E. unfold sdp_parse. rewrite (parse_fits _ _ _ _ F1), (parse_fits _ _ _ _ F2).
    rewrite (flat_blank (lines s1)), (flat_blank (lines s2)), E. reflexivity.
  Qed.
  Lemma too_long : forall s, Exists (fun l => LINE_LIMIT < nlen l) (lines s) -> forall d, sdp_parse ovf lossy lc s <> ROk d.
  Proof. intros s H d E. apply parse_says in E as [E _]. rewrite (fits_long _ _ H) in E. discriminate. Qed.
  Lemma says_exact : forall s, Forall (fun l => nlen l < LINE_LIMIT) (lines s) ->
    forall d, sdp_parse ovf lossy lc s = ROk d <-> says until_time ovf lossy lc (lines s) d.
  Proof.
    intros s H d. rewrite parse_says. rewrite (fits_short s LINE_LIMIT eq_refl H). tauto.
  Qed.

  Lemma before_none {A} (p : A -> bool) l : existsb p l = false -> before p l = l.
  Proof.
    induction l as [|x l IH]; [reflexivity|]. cbn [existsb before]. intros H. apply orb_false_elim in H as [-> H]. f_equal. now apply IH.
  Qed.
  Lemma says_whole : forall ls d, Forall (fun s => existsb (of_type 116) (snd s) = false) (sections ls) ->
    says until_time ovf lossy lc ls d <-> says whole ovf lossy lc ls d.
  Proof.
    intros ls d H. unfold says.
    assert (E : Forall2 (fun s x => section_says ovf lossy lc (fst s) (until_time (snd s)) x) (sections ls) (sd_media d)
                <-> Forall2 (fun s x => section_says ovf lossy lc (fst s) (whole (snd s)) x) (sections ls) (sd_media d)); [|now rewrite E].
    revert H. generalize (sections ls) (sd_media d). intros ss ms H. revert ms. induction H as [|s ss Hs H IH]; intros ms.
    - split; intros X; inversion X; constructor.
    - split; intros X; inversion X; subst; constructor; try (now apply IH); unfold until_time, whole in *; now rewrite (before_none _ _ Hs) in *.
  Qed.
  Lemma sections_recognised : forall s d, Forall (fun l => nlen l < LINE_LIMIT) (lines s) ->
    Forall (fun x => existsb (of_type 116) (snd x) = false) (sections (lines s)) ->
    sdp_parse ovf lossy lc s = ROk d <-> says whole ovf lossy lc (lines s) d.
  Proof. intros s d H1 H2. rewrite (says_exact s H1), says_whole by assumption. reflexivity. Qed.

  Lemma media_count : forall s d, sdp_parse ovf lossy lc s = ROk d ->
    Forall2 (fun l m => media_line ovf lossy lc l = ROk (with_attrs m [])) (filter (of_type 109) (lines s)) (sd_media d).
  Proof.
    intros s d H. apply parse_says in H as (_ & _ & H). revert H. generalize (sd_media d). generalize (lines s).
    induction l as [|x l IH]; intros ms H; cbn [sections filter] in *; [inversion H; constructor|].
    destruct (of_type 109 x); [|now apply IH]. inversion H as [|? ? ? ? (m0 & ats & M & _ & ->)]; subst. constructor; [|now apply IH].
    cbn [fst] in M. rewrite M. f_equal. clear -M. unfold media_line in M. destruct (after_letter lossy 109 x); [|discriminate].
    unfold media_parse in M. destruct (read_word (trim _)) as [? ?].
    destruct (read_decimal ovf _) as [[? ?]| |]; try discriminate.
    match type of M with context [match ?X with ROk _ => _ | _ => _ end] => destruct X as [[? ?]| |]; try discriminate end.
    destruct (read_word _). inversion M. reflexivity.
  Qed.
End Ends.

(** Every line end: CR, LF and CR LF *)
Definition an_end (e : bytes) : Prop := e = [13] \/ e = [10] \/ e = [13; 10].
Definition unbroken (l : bytes) : Prop := Forall (fun b => b <> 13 /\ b <> 10) l.
Lemma lines_cons : forall l b s, unbroken l -> line_end b = true -> lines (l ++ b :: s) = l :: lines s.
Proof.
  intros l b s H Hb. induction H as [|x l [H1 H2] H IH]; cbn [app lines]; [now rewrite Hb|].
  rewrite IH. unfold line_end. destruct (N.eqb_spec x 13); [contradiction|]. destruct (N.eqb_spec x 10); [contradiction|]. reflexivity.
Qed.
Lemma lines_tail : forall l, unbroken l -> l <> [] -> lines l = [l].
Proof.
  intros l H Hn. induction H as [|x l [H1 H2] H IH]; [congruence|]. cbn [lines]. unfold line_end.
  destruct (N.eqb_spec x 13); [contradiction|]. destruct (N.eqb_spec x 10); [contradiction|]. cbn [orb].
  destruct l; [reflexivity|]. rewrite IH; [reflexivity|discriminate].
Qed.
Lemma lines_ends : forall ls tail, Forall (fun x => unbroken (fst x) /\ an_end (snd x)) ls -> unbroken tail ->
  filter nonempty (lines (List.concat (map (fun x => fst x ++ snd x) ls) ++ tail)) = filter nonempty (map fst ls ++ [tail]).
Proof.
  intros ls tail H Ht. induction H as [|[l e] ls [H1 H2] H IH]; cbn [map List.concat app fst snd] in *.
  - destruct tail as [|b t]; [reflexivity|]. rewrite lines_tail; [reflexivity|assumption|discriminate].
  - rewrite <- !app_assoc. destruct H2 as [->|[->| ->]]; cbn [app].
    + rewrite lines_cons by (assumption || reflexivity). cbn [filter]. now rewrite IH.
    + rewrite lines_cons by (assumption || reflexivity). cbn [filter]. now rewrite IH.
    + rewrite lines_cons by (assumption || reflexivity). cbn [filter lines]. change (line_end 10) with true. cbn iota. cbn [filter nonempty]. now rewrite IH.
Qed.

(** ** Depth *)
Fixpoint time_lines (n : nat) : bytes := match n with O => [] | S k => 116 :: 10 :: time_lines k end.
Lemma time_split : forall n, lines (time_lines n) = repeat [116] n.
Proof. induction n as [|n IH]; [reflexivity|]. cbn [time_lines lines repeat]. change (line_end 116) with false. change (line_end 10) with true. cbn iota. now rewrite IH. Qed.
Lemma time_length : forall n, nlen (time_lines n) = 2 * N.of_nat n.
Proof. unfold nlen. induction n as [|n IH]; [reflexivity|]. cbn [time_lines length]. lia. Qed.
Lemma time_flat : forall ovf lossy lc n l d, flat ovf lossy lc l d (repeat [116] n) = ROk (d, N.of_nat n).
Proof.
  intros ovf lossy lc. induction n as [|n IH]; intros l d; [reflexivity|]. cbn [repeat flat]. change (step ovf lossy lc l d [116]) with (@ROk (loop * sdp * N) (LpTime, d, 1)).
  cbn iota. rewrite IH. do 2 f_equal. lia.
Qed.
Lemma time_depth : forall ovf lossy lc n, exists s, nlen s = 2 * n /\ sdp_run ovf lossy lc s = ROk (sdp_new, [], n).
Proof.
  intros ovf lossy lc n. exists (time_lines (N.to_nat n)). split; [rewrite time_length; lia|].
  rewrite parse_fits.
  - rewrite time_split, time_flat. cbn [lift]. do 2 f_equal. lia.
  - apply fits_short; [reflexivity|]. rewrite time_split. apply Forall_forall. intros x H. apply repeat_spec in H. subst. reflexivity.
Qed.

(** ** Examples *)
Definition cr : bytes := [13].
Definition lf : bytes := [10].
Definition example_sdp : bytes :=
  lit "v=0"%string ++ cr ++ lf ++ lit "t=0 0"%string ++ lf ++ lit "m=audio 49170/2 RTP/AVP 0"%string ++ cr ++ lit "a=sendonly"%string ++ lf ++
  lit "m=video 51372 RTP/AVP 99 100"%string ++ lf ++ lit "c=IN"%string ++ lf ++ lit "a=rtpmap:99 h264/90000"%string ++ cr ++ lf.
Definition late_time : bytes :=
  lit "m=video 51372 RTP/AVP 99"%string ++ lf ++ lit "t=0 0"%string ++ lf ++ lit "a=rtpmap:99 H264/90000"%string ++ lf.
Definition same (s : bytes) : bytes := s.
Definition upper (s : bytes) : bytes := map (fun b => if (97 <=? b) && (b <=? 122) then b - 32 else b) s.
Definition lowers (s : bytes) : bytes := map lower s.

Lemma example_parse : sdp_parse true same lowers example_sdp = ROk {| sd_version := 0; sd_media :=
  [ {| md_type := MAudio; md_port := 49170; md_nb := Some 2; md_protocol := lit "RTP/AVP"%string; md_formats := [lit "0"%string];
       md_attrs := [{| at_name := lit "sendonly"%string; at_value := None |}] |};
    {| md_type := MVideo; md_port := 51372; md_nb := None; md_protocol := lit "RTP/AVP"%string; md_formats := [lit "99"; lit "100"]%string;
       md_attrs := [{| at_name := lit "rtpmap"%string; at_value := Some (lit "99 h264/90000"%string) |}] |} ] |}.
Proof. vm_compute. reflexivity. Qed.

(** A time line between a media line and its attributes hides them. *)
Lemma late_time_lost : exists s, Forall (fun l => nlen l < LINE_LIMIT) (lines s) /\
  (exists d, sdp_parse true same lowers s = ROk d) /\
  forall d, sdp_parse true same lowers s = ROk d -> ~ says whole true same lowers (lines s) d.
Proof.
  exists late_time. split; [|split].
  - assert (F : forallb (fun l => nlen l <? LINE_LIMIT) (lines late_time) = true) by (vm_compute; reflexivity).
    rewrite forallb_forall in F. apply Forall_forall. intros x Hx. apply N.ltb_lt. now apply F.
  - eexists. vm_compute. reflexivity.
  - intros d H. assert (E : sd_media d = match sdp_parse true same lowers late_time with ROk d => sd_media d | _ => [] end) by now rewrite H.
    intros (_ & S). rewrite E in S. clear E H. revert S.
    replace (sections (lines late_time)) with [(lit "m=video 51372 RTP/AVP 99"%string, [lit "t=0 0"%string; lit "a=rtpmap:99 H264/90000"%string])] by (vm_compute; reflexivity).
    match goal with |- Forall2 _ _ ?m -> _ => let m' := eval vm_compute in m in change m with m' end.
    intros S. inversion S as [|? ? ? ? (m0 & ats & M & A & W) _]; subst. cbn [snd fst whole] in *.
    assert (F : ats = []) by (apply (f_equal md_attrs) in W; cbn in W; congruence). subst ats. unfold whole in A.
    replace (filter (of_type 97) [lit "t=0 0"%string; lit "a=rtpmap:99 H264/90000"%string]) with [lit "a=rtpmap:99 H264/90000"%string] in A by (vm_compute; reflexivity).
    inversion A.
Qed.
Lemma late_time_stream : is_supported_rtsp true same lowers upper late_time = ROk false.
Proof. vm_compute. reflexivity. Qed.

Definition big_version : bytes := lit "v=4294967296"%string.
Lemma overflow_panics : forall lossy lc, (forall s, lossy s = s) -> exists s, sdp_parse true lossy lc s = RPanic.
Proof.
  intros lossy lc H. exists big_version. unfold sdp_parse.
  assert (X : version_line true lossy big_version = RPanic) by (unfold version_line, after_letter; rewrite H; vm_compute; reflexivity).
  assert (F : fits LINE_LIMIT 0 big_version = true) by (vm_compute; reflexivity).
  assert (L : lines big_version = [big_version]) by (vm_compute; reflexivity).
  assert (C : first_char big_version = Some 118) by (vm_compute; reflexivity).
  revert X F L C. generalize big_version. intros s X F L C. rewrite (parse_fits _ _ _ _ F), L. cbn [flat]. unfold step. rewrite C, N.eqb_refl, X. reflexivity.
Qed.

(** ** Versions, kinds of media and pictures *)
Lemma version_exact ovf lossy line d v rest :
  d <> [] -> digits_val 10 d 0 = Some v -> v < 2 ^ 32 -> no_digit rest -> lossy line = lit "v="%string ++ d ++ rest ->
  version_line ovf lossy line = ROk (if v <? 2 ^ 31 then Z.of_N v else (Z.of_N v - 2 ^ 32)%Z).
Proof.
  intros D H L Nd E. unfold version_line. rewrite (letter_exact lossy 118 line (d ++ rest) ltac:(split; lia) E).
  now rewrite (read_decimal_exact ovf d v rest D H L Nd).
Qed.
Lemma media_kind lc s : (forall n t, In (n, t) media_names -> (mtype_of lc s = t <-> lc s = lit n)) /\
  ((forall n t, In (n, t) media_names -> lc s <> lit n) -> mtype_of lc s = MOther s).
Proof.
  unfold mtype_of.
  destruct (beq (lc s) (lit "audio"%string)) eqn:E1; [apply beq_spec in E1|rewrite <- not_true_iff_false, beq_spec in E1];
  [|destruct (beq (lc s) (lit "video"%string)) eqn:E2; [apply beq_spec in E2|rewrite <- not_true_iff_false, beq_spec in E2];
  [|destruct (beq (lc s) (lit "text"%string)) eqn:E3; [apply beq_spec in E3|rewrite <- not_true_iff_false, beq_spec in E3];
  [|destruct (beq (lc s) (lit "application"%string)) eqn:E4; [apply beq_spec in E4|rewrite <- not_true_iff_false, beq_spec in E4];
  [|destruct (beq (lc s) (lit "message"%string)) eqn:E5; [apply beq_spec in E5|rewrite <- not_true_iff_false, beq_spec in E5]]]]].
  all: split;
    [intros n t Hi; cbn [In media_names] in Hi;
     repeat (destruct Hi as [Hi|Hi]; [injection Hi as <- <-|]); try contradiction;
     (split; [intros X; first [assumption|discriminate X]|intros X; first [reflexivity|contradiction|congruence|
       match goal with A : ?f ?y = _, B : ?f ?y = _ |- _ => rewrite A in B; discriminate B end]])
    |intros Hn; first [reflexivity|exfalso; eapply Hn; [|eassumption]; cbn [In media_names]; tauto]].
Qed.
Lemma rtpmap_name ovf lc a e : rtpmap_of ovf lc a = ROk e <->
  lc (at_name a) = lit "rtpmap"%string /\ exists v, at_value a = Some v /\ rtpmap_parse ovf v = ROk e.
Proof.
  unfold rtpmap_of. destruct (beq (lc (at_name a)) (lit "rtpmap"%string)) eqn:E.
  - apply beq_spec in E. destruct (at_value a) as [v|]; split.
    + intros H. split; [assumption|]. now exists v.
    + intros (_ & v' & V & H). injection V as <-. assumption.
    + discriminate.
    + now intros (_ & v' & V & H).
  - split; [discriminate|]. intros (H & _). apply beq_spec in H. congruence.
Qed.
Lemma starts_app p s : starts_with p s = true <-> exists r, s = p ++ r.
Proof.
  revert s. induction p as [|a p IH]; intros s.
  - split; [now exists s|reflexivity].
  - destruct s as [|b s]; cbn [starts_with].
    + split; [discriminate|]. intros (r & H). discriminate.
    + rewrite andb_true_iff, N.eqb_eq, IH. split.
      * intros (-> & r & ->). now exists r.
      * intros (r & H). injection H as <- ->. split; [reflexivity|]. now exists r.
Qed.
Lemma pictures lc os h : rh_fields h = fields_of lc os ->
  (is_supported_mjpeg lc h = true <-> exists t r, In t picture_types /\ lc (content_type lc (listed lc os)) = t ++ r).
Proof.
  intros E. unfold is_supported_mjpeg, last_field. rewrite E. rewrite (proj1 (fields_lookup_all lc os _)).
  assert (C : match match rev (filter (same_name lc (lit "content-type"%string)) (listed lc os)) with f :: _ => Some f | [] => None end with
              | Some f => match hf_value f with Some v => v | None => [] end | None => [] end = content_type lc (listed lc os)).
  { unfold content_type. now destruct (rev _). }
  rewrite C. rewrite !orb_true_iff, !starts_app. unfold picture_types. cbn [In]. split.
  - intros [[(r & H)|(r & H)]|(r & H)]; eexists; exists r; (split; [|exact H]); tauto.
  - intros (t & r & [<-|[<-|[<-|[]]]] & H); eauto.
Qed.

(** With overflow checks, an attribute of a readable description can panic. *)
Lemma stream_overflow : exists s d, sdp_parse true same lowers s = ROk d /\ is_supported_rtsp true same lowers upper s = RPanic /\
  rtsp_stream_type true same lowers upper 200 s = RPanic.
Proof.
  exists (lit "m=video 51372 RTP/AVP 99"%string ++ lf ++ lit "a=rtpmap:4294967296 H264/90000"%string ++ lf).
  eexists. split; [vm_compute; reflexivity|]. split; vm_compute; reflexivity.
Qed.
