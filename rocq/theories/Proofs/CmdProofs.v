(** The command line is read as described. *)
From Coq Require Import NArith List Bool Lia String.
From Coq Require Import ZArith ZifyBool ZifyNat ZifyN.
From Verif.Model Require Import Bytes Service Text Utf8 Url TableJson CmdLine.
From Verif.Spec Require Import UrlSpec CmdSpec.
From Verif.Proofs Require Import BytesFacts TextProofs UrlProofs.
Import ListNotations.
Local Open Scope N_scope.
Local Open Scope list_scope.

(** ** Trimming *)

Lemma strip_spec chars : (forall w, In w chars -> w <> []) -> forall fuel s, (List.length s <= fuel)%nat ->
  exists l, s = List.concat l ++ strip_fuel fuel chars s /\ Forall (fun w => In w chars) l /\
    forall w, In w chars -> starts_with w (strip_fuel fuel chars s) = false.
Proof.
  intros Hne. induction fuel as [|f IH]; intros s Hl; cbn [strip_fuel].
  - exists []. split; [reflexivity|]. split; [constructor|]. intros w Hw. destruct s; [|cbn in Hl; lia].
    destruct w; [exfalso; eapply Hne; eauto|reflexivity].
  - destruct (find (fun w => starts_with w s) chars) as [w|] eqn:E.
    + apply find_some in E as [Hw Hs]. apply starts_with_iff in Hs as (r & ->).
      rewrite skipn_app, skipn_all, PeanoNat.Nat.sub_diag. cbn [skipn app].
      assert (Hn := Hne w Hw). destruct w as [|x w]; [contradiction|].
      destruct (IH r) as (l & H1 & H2 & H3). { rewrite app_length in Hl. cbn in Hl. lia. }
      exists ((x :: w) :: l). split; [|split; [constructor; auto|exact H3]]. cbn [List.concat]. rewrite <- app_assoc, <- H1. reflexivity.
    + exists []. split; [reflexivity|]. split; [constructor|]. intros w Hw. exact (find_none _ _ E w Hw).
Qed.

Lemma white_ne w : In w white_chars -> w <> [].
Proof. unfold white_chars. cbn [In]. intuition (subst; discriminate). Qed.

Lemma concat_rev {A} (l : list (list A)) : rev (List.concat l) = List.concat (map (@rev A) (rev l)).
Proof.
  induction l as [|x l IH]; [reflexivity|]. cbn [List.concat rev]. rewrite rev_app_distr, IH, map_app, concat_app. cbn. now rewrite app_nil_r.
Qed.

Lemma trim_spec s : trimmed s (trim s).
Proof.
  unfold trim, trim_end, trim_start.
  destruct (strip_spec white_chars white_ne (List.length s) s) as (l & H1 & H2 & H3); [lia|].
  set (t0 := strip_fuel (List.length s) white_chars s) in *. clearbody t0.
  destruct (strip_spec (map (@rev N) white_chars)) with (fuel := List.length t0) (s := rev t0) as (l2 & G1 & G2 & G3).
  { intros w Hw. apply in_map_iff in Hw as (x & <- & Hx). intros E. apply (white_ne x Hx).
    rewrite <- (rev_involutive x), E. reflexivity. }
  { rewrite rev_length. lia. }
  set (t1 := strip_fuel (List.length t0) (map (@rev N) white_chars) (rev t0)) in *. clearbody t1.
  assert (E : t0 = rev t1 ++ rev (List.concat l2)).
  { rewrite <- (rev_involutive t0), G1, rev_app_distr. reflexivity. }
  exists (List.concat l), (rev (List.concat l2)). split; [rewrite H1, E; reflexivity|]. split; [exists l; auto|]. split.
  - exists (map (@rev N) (rev l2)). split; [apply concat_rev|]. apply Forall_forall. intros w Hw.
    apply in_map_iff in Hw as (x & <- & Hx). apply in_rev in Hx. rewrite Forall_forall in G2. specialize (G2 x Hx).
    apply in_map_iff in G2 as (y & <- & Hy). now rewrite rev_involutive.
  - intros w Hw. split.
    + destruct (starts_with w (rev t1)) eqn:Es; [|reflexivity]. apply starts_with_iff in Es as (r & Er).
      rewrite <- (H3 w Hw). rewrite E, Er. symmetry. apply starts_with_iff. exists (r ++ rev (List.concat l2)). now rewrite app_assoc.
    + unfold ends_with. rewrite rev_involutive. apply G3. apply in_map. exact Hw.
Qed.

Lemma described_spec s : description s (described s).
Proof.
  unfold described, description. pose proof (trim_spec s) as H. destruct (trim s) as [|x t] eqn:E; split; auto; discriminate.
Qed.

(** ** Trimming is unambiguous *)

Definition prefix_free (chars : list bytes) : bool :=
  forallb (fun w => forallb (fun v => negb (starts_with w v) || beq w v) chars) chars.
Lemma prefix_free_spec chars w v : prefix_free chars = true -> In w chars -> In v chars -> starts_with w v = true -> w = v.
Proof.
  unfold prefix_free. intros H Hw Hv Hs. rewrite forallb_forall in H. specialize (H w Hw). rewrite forallb_forall in H.
  specialize (H v Hv). rewrite Hs in H. cbn in H. now apply beq_spec in H.
Qed.
Lemma prefixes (a b s : bytes) : starts_with a s = true -> starts_with b s = true -> starts_with a b = true \/ starts_with b a = true.
Proof.
  revert b s. induction a as [|x a IH]; intros b s H1 H2; [now left|]. destruct b as [|y b]; [now right|].
  destruct s as [|z s]; [discriminate|]. cbn [starts_with] in *. apply andb_true_iff in H1 as [Hx H1].
  apply andb_true_iff in H2 as [Hy H2]. apply N.eqb_eq in Hx, Hy. subst. rewrite N.eqb_refl. exact (IH b s H1 H2).
Qed.

Lemma strip_exact chars : prefix_free chars = true -> (forall w, In w chars -> w <> []) ->
  forall l u fuel, Forall (fun w => In w chars) l -> (forall w, In w chars -> starts_with w u = false) ->
  (List.length (List.concat l ++ u) <= fuel)%nat -> strip_fuel fuel chars (List.concat l ++ u) = u.
Proof.
  intros Hpf Hne. induction l as [|w l IH]; intros u fuel Hl Hu Hf; cbn [List.concat app] in *.
  - destruct fuel as [|f]; [reflexivity|]. cbn [strip_fuel].
    destruct (find (fun w => starts_with w u) chars) as [w|] eqn:E; [|reflexivity].
    apply find_some in E as [Hw Hs]. rewrite (Hu w Hw) in Hs. discriminate.
  - inversion Hl as [|? ? Hw Hl']; subst. destruct fuel as [|f].
    + assert (Hn := Hne w Hw). destruct w; [contradiction|]. cbn in Hf. lia.
    + cbn [strip_fuel]. rewrite <- app_assoc in *.
      assert (Hsw : starts_with w (w ++ List.concat l ++ u) = true) by (apply starts_with_iff; eauto).
      destruct (find (fun w0 => starts_with w0 (w ++ List.concat l ++ u)) chars) as [v|] eqn:E.
      * apply find_some in E as [Hv Hs]. assert (v = w).
        { destruct (prefixes v w _ Hs Hsw) as [H|H]; [|symmetry]; eapply prefix_free_spec; eauto. }
        subst v. rewrite skipn_app, skipn_all, PeanoNat.Nat.sub_diag. cbn [skipn app]. apply IH; auto.
        assert (Hn := Hne w Hw). destruct w; [contradiction|]. rewrite app_length in Hf. cbn in Hf. lia.
      * exfalso. pose proof (find_none _ _ E w Hw) as H. cbn beta in H. congruence.
Qed.

Definition cont_tail (w : bytes) : bool :=
  match w with [] => false | x :: r => negb ((128 <=? x) && (x <=? 191)) && forallb (fun y => (128 <=? y) && (y <=? 191)) r end.
Lemma white_cont w : In w white_chars -> cont_tail w = true.
Proof. revert w. apply forallb_forall. vm_compute. reflexivity. Qed.

Lemma white_first b : white b -> forall x r, b = x :: r -> ~ (128 <= x <= 191).
Proof.
  intros (l & -> & Hl) x r E. destruct l as [|w l]; [discriminate|]. inversion Hl as [|? ? Hw _]; subst.
  pose proof (white_cont w Hw) as Hc. destruct w as [|y w]; [discriminate|]. cbn in E, Hc. injection E as -> _. lia.
Qed.

Lemma no_white_start t b w : t <> [] -> white b -> In w white_chars -> starts_with w t = false -> starts_with w (t ++ b) = false.
Proof.
  intros Hne Hb Hw Ht. destruct (starts_with w (t ++ b)) eqn:E; [|reflexivity]. exfalso.
  assert (Hpt : starts_with t (t ++ b) = true) by (apply starts_with_iff; eauto).
  destruct (prefixes w t _ E Hpt) as [H|H]; [congruence|].
  apply starts_with_iff in H as (c & ->). pose proof (white_cont _ Hw) as Hc.
  destruct t as [|x t]; [contradiction|]. destruct c as [|y c].
  - rewrite app_nil_r in Ht. rewrite (proj2 (starts_with_iff (x :: t) (x :: t))) in Ht; [discriminate|exists []; now rewrite app_nil_r].
  - apply starts_with_iff in E as (r & E). rewrite <- app_assoc in E. apply app_inv_head in E. cbn [app] in E.
    pose proof (white_first b Hb y (c ++ r) E) as Hy. cbn [cont_tail app] in Hc. apply andb_true_iff in Hc as [_ Hc].
    rewrite forallb_forall in Hc. specialize (Hc y (in_or_app t (y :: c) y (or_intror (or_introl eq_refl)))). lia.
Qed.

Lemma trim_unique s t : trimmed s t -> trim s = t.
Proof.
  intros (a & b & -> & (la & -> & Hla) & Hb & Ht). pose proof Hb as Hb'. destruct Hb' as (lb & Eb & Hlb).
  assert (Hpf : prefix_free white_chars = true) by (vm_compute; reflexivity).
  assert (Hpf2 : prefix_free (map (@rev N) white_chars) = true) by (vm_compute; reflexivity).
  assert (Hne2 : forall w, In w (map (@rev N) white_chars) -> w <> []).
  { intros w Hw. apply in_map_iff in Hw as (x & <- & Hx). intros E. apply (white_ne x Hx).
    rewrite <- (rev_involutive x), E. reflexivity. }
  destruct t as [|x t].
  - assert (E : trim_start (List.concat la ++ [] ++ b) = []).
    { cbn [app]. rewrite Eb, <- concat_app. unfold trim_start.
      replace (List.concat (la ++ lb)) with (List.concat (la ++ lb) ++ []) by apply app_nil_r.
      apply (strip_exact _ Hpf white_ne); [apply Forall_app; auto| |lia].
      intros w Hw. pose proof (white_ne w Hw). destruct w; [contradiction|reflexivity]. }
    unfold trim. rewrite E. reflexivity.
  - assert (E : trim_start (List.concat la ++ (x :: t) ++ b) = (x :: t) ++ b).
    { unfold trim_start. apply (strip_exact _ Hpf white_ne); auto. intros w Hw. apply no_white_start; auto; [discriminate|].
      now apply Ht. }
    unfold trim. rewrite E. unfold trim_end. rewrite rev_app_distr, Eb, concat_rev.
    rewrite (strip_exact _ Hpf2 Hne2).
    + apply rev_involutive.
    + apply Forall_forall. intros w Hw. apply in_map_iff in Hw as (y & <- & Hy). apply in_map. apply in_rev in Hy.
      rewrite Forall_forall in Hlb. auto.
    + intros w Hw. apply in_map_iff in Hw as (y & <- & Hy). destruct (Ht y Hy) as [_ H]. exact H.
    + rewrite <- concat_rev, <- rev_app_distr, rev_length. lia.
Qed.

Lemma description_unique s v : description s v -> described s = v.
Proof.
  intros [H Hn]. apply trim_unique in H. unfold described. rewrite H. destruct v as [[|]|]; auto. contradiction.
Qed.

(** ** Services given as URLs *)

Section Options.
Variable feature : bool.
Variable get_mac : bytes -> option N.
Variable resolve : bytes -> option saddr.
Variable resolve_host : bytes -> N -> option saddr.

Lemma fake_mac_octets a : fake_mac 65535 a = fake_octets a.
Proof. unfold fake_mac, fake_octets. destruct (sa_ip a); reflexivity. Qed.

Lemma svc_url_of scheme dport f g p : utf8_valid (assemble p) = true -> url_ok p ->
  parse_svc_url resolve_host scheme dport f g (assemble p) =
  if eq_ignore_case (up_scheme p) scheme
  then match resolve_host (up_host p) (match up_port p with Some (_, n) => n | None => dport end) with
       | None => RErr
       | Some a => let path := match up_tail p with None => [47] | Some (path, q, _) => path ++ opt_text 63 q end in
                   ROk (match up_user p with None => f (fake_mac 65535 a) a path | Some _ => g (fake_mac 65535 a) a (Some path) end)
       end
  else RErr.
Proof.
  intros Hv Hok. destruct (url_parse_ok p Hv Hok) as (u & Hu & A1 & A2 & A3 & A4 & A5 & A6 & A7 & A8).
  unfold parse_svc_url. rewrite Hu. cbn [rbind]. rewrite A1. cbn [rbind].
  destruct (eq_ignore_case (up_scheme p) scheme); cbn [negb]; [|reflexivity].
  rewrite A4. cbn [rbind]. rewrite A5.
  replace (match option_map snd (up_port p) with Some p0 => p0 | None => dport end)
    with (match up_port p with Some (_, n) => n | None => dport end) by (destruct (up_port p) as [[]|]; reflexivity).
  destruct (resolve_host (up_host p) _) as [a|]; [|reflexivity].
  cbv zeta. rewrite A6, A7, A2. cbn [rbind]. f_equal.
  destruct (up_tail p) as [[[path q] fr]|]; [destruct q|]; cbn [opt_text]; rewrite ?app_nil_r; destruct (up_user p) as [[]|]; reflexivity.
Qed.

Lemma svc_url_iff scheme dport f g ot lt t s :
  (forall m a b, f m a b = {| s_type := ot; s_mac := Some m; s_addr := Some a; s_path := Some b |}) ->
  (forall m a b, g m a b = {| s_type := lt; s_mac := Some m; s_addr := Some a; s_path := b |}) ->
  utf8_valid t = true ->
  (parse_svc_url resolve_host scheme dport f g t = ROk s <-> url_service resolve_host scheme dport ot lt t s).
Proof.
  intros Hf Hg Hv. split.
  - intros H. destruct (url_parse_total t Hv) as [(p & u & Hok & -> & Hu & _)|[He _]].
    + rewrite (svc_url_of scheme dport f g p Hv Hok) in H.
      destruct (eq_ignore_case (up_scheme p) scheme) eqn:Es; [|discriminate].
      destruct (resolve_host (up_host p) _) as [a|] eqn:Er; [|discriminate]. cbv zeta in H.
      exists p, a. split; [exact Hok|]. split; [reflexivity|]. split; [exact Es|]. split; [exact Er|]. destruct (up_user p); injection H as <-; rewrite ?Hf, ?Hg, fake_mac_octets; reflexivity.
    + unfold parse_svc_url in H. rewrite He in H. discriminate.
  - intros (p & a & Hok & -> & Es & Er & ->). rewrite (svc_url_of scheme dport f g p Hv Hok), Es, Er. cbv zeta.
    destruct (up_user p); rewrite ?Hf, ?Hg, fake_mac_octets; reflexivity.
Qed.
Lemma svc_url_nopanic scheme dport f g t : utf8_valid t = true -> parse_svc_url resolve_host scheme dport f g t <> RPanic.
Proof.
  intros Hv. destruct (url_parse_total t Hv) as [(p & u & Hok & -> & Hu & _)|[He _]].
  - rewrite (svc_url_of scheme dport f g p Hv Hok). destruct (eq_ignore_case _ _); [|discriminate].
    destruct (resolve_host _ _); discriminate.
  - unfold parse_svc_url. rewrite He. discriminate.
Qed.

(** ** Single arguments *)

(** What an option does to the parser. *)
Definition apply_opt (o : opt) (c : cparser) : cparser :=
  match o with
  | OCa v => set_ca (cp_ca c ++ [v]) c
  | ODiscovery => set_disc true c
  | OWhitelist v => set_disc true (set_white (cp_white c ++ [v]) c)
  | OMac m => set_mac (Some m) c
  | OService s => set_services (cp_services c ++ [s]) c
  | OVerbose => set_verbose true c
  | OFlash => set_flash true c
  | ODiagnostic => set_diag true c
  | ONoGateway => set_gateway false c
  | OStderr b => set_logger (if b then LStderrPretty else LStderr) c
  | OLogFile v => set_log v (set_logger LFile c)
  | OLogSize n => set_logsize n c
  | OLogRotations n => set_logrot n c
  | OConfig v => set_config v c
  | OSkeleton v => set_skel v c
  | OState v => set_state v c
  | OIdentity v => set_identity (Some v) c
  | ORtspPaths v => set_rtsp v c
  | OMjpegPaths v => set_mjpeg v c
  | OLock v => set_lock (Some v) c
  | OCategory v => set_cat v c
  | OType v => set_type v c
  | OVendor v => set_vendor v c
  end.

Lemma from_app n p' x v f : utf8_valid (p' ++ x :: v) = true -> x <= 127 -> n = S (List.length p') -> from n (p' ++ x :: v) f = f v.
Proof.
  intros Hv Hx Hn. unfold from. rewrite (slice_cut _ n _ (p' ++ [x]) v []); auto.
  - apply cut_post; [|lia]. rewrite app_nil_r, <- app_assoc. reflexivity.
  - apply cut_stop. rewrite <- app_assoc. reflexivity.
  - rewrite app_length. cbn. lia.
  - rewrite !app_length. cbn [List.length]. lia.
Qed.

Lemma from_lit n (p v : bytes) f : utf8_valid (p ++ v) = true -> n = List.length p ->
  (exists p' x, p = p' ++ [x] /\ x <= 127) -> from n (p ++ v) f = f v.
Proof.
  intros Hv Hn (p' & x & -> & Hx). rewrite <- app_assoc in *. apply from_app; auto. rewrite Hn, app_length. cbn. lia.
Qed.
Lemma ascii_last p : forallb (fun x => x <=? 127) p = true -> p <> [] -> exists p' x, p = p' ++ [x] /\ x <= 127.
Proof.
  intros H Hn. destruct (exists_last Hn) as (p' & x & E). subst p. exists p', x. split; [reflexivity|].
  rewrite forallb_app in H. cbn in H. lia.
Qed.

Notation aval := (apply_value feature get_mac resolve resolve_host).
Notation asin := (apply_single feature).

Ltac by_from := cbv beta; rewrite from_lit; [|assumption|reflexivity|apply ascii_last; [reflexivity|discriminate]].

Lemma written_applies a o c : Forall (fun x => utf8_valid x = true) a -> written feature get_mac resolve resolve_host a o ->
  (exists x, a = [x] /\ takes_value x = false /\ asin x c = POk (apply_opt o c)) \/
  (exists x v, a = [x; v] /\ takes_value x = true /\ aval x v c = POk (apply_opt o c)).
Proof.
  intros Hv Hw. destruct Hw;
    try (right; eexists; eexists; split; [reflexivity|]; split; [reflexivity|]);
    try (left; eexists; split; [reflexivity|]; split; [reflexivity|]);
    pose proof (Forall_inv Hv) as Hv1; cbv beta in Hv1; pose proof (Forall_inv_tail Hv) as Hv2;
    try (pose proof (Forall_inv Hv2) as Hv3; cbv beta in Hv3).
  - reflexivity.
  - transitivity (if feature then POk (set_disc true c) else PErr); [reflexivity|]. now rewrite H.
  - transitivity (if feature then POk (set_disc true (set_white (cp_white c ++ [v]) c)) else PErr); [reflexivity|]. now rewrite H.
  - transitivity (pbind (of_result (opt_result (get_mac v))) (fun m => POk (set_mac (Some m) c))); [reflexivity|]. now rewrite H.
  - transitivity (add_service c (parse_rtsp_url resolve_host v)); [reflexivity|]. unfold parse_rtsp_url.
    rewrite (proj2 (svc_url_iff (lit "rtsp") 554 svc_rtsp svc_locked_rtsp RTSP LockedRTSP v s (fun _ _ _ => eq_refl) (fun _ _ _ => eq_refl) Hv3) H).
    reflexivity.
  - transitivity (add_service c (parse_mjpeg_url resolve_host v)); [reflexivity|]. unfold parse_mjpeg_url.
    rewrite (proj2 (svc_url_iff (lit "http") 80 svc_mjpeg svc_locked_mjpeg MJPEG LockedMJPEG v s (fun _ _ _ => eq_refl) (fun _ _ _ => eq_refl) Hv3) H).
    reflexivity.
  - transitivity (add_service c (rbind (opt_result (resolve v)) (fun s => ROk (svc_http (fake_mac 65535 s) s)))); [reflexivity|].
    rewrite H. cbn. now rewrite fake_mac_octets.
  - transitivity (add_service c (rbind (opt_result (resolve v)) (fun s => ROk (svc_tcp (fake_mac 65535 s) s)))); [reflexivity|].
    rewrite H. cbn. now rewrite fake_mac_octets.
  - reflexivity.
  - reflexivity.
  - reflexivity.
  - reflexivity.
  - reflexivity.
  - reflexivity.
  - transitivity (from 11 (lit "--log-file=" ++ v) (fun v => POk (set_log v (set_logger LFile c)))); [reflexivity|]. by_from. reflexivity.
  - transitivity (from 16 (lit "--log-file-size=" ++ v) (fun v => pbind (of_result (opt_result (parse_uint 10 (2 ^ 64 - 1) v))) (fun n => POk (set_logsize n c)))); [reflexivity|].
    by_from. replace (2 ^ 64 - 1) with 18446744073709551615 by reflexivity. rewrite H. reflexivity.
  - transitivity (from 21 (lit "--log-file-rotations=" ++ v) (fun v => pbind (of_result (opt_result (parse_uint 10 (2 ^ 64 - 1) v))) (fun n => POk (set_logrot n c)))); [reflexivity|].
    by_from. replace (2 ^ 64 - 1) with 18446744073709551615 by reflexivity. rewrite H. reflexivity.
  - transitivity (from 14 (lit "--config-file=" ++ v) (fun v => POk (set_config v c))); [reflexivity|]. by_from. reflexivity.
  - transitivity (from 19 (lit "--config-file-skel=" ++ v) (fun v => POk (set_skel v c))); [reflexivity|]. by_from. reflexivity.
  - transitivity (from 18 (lit "--conn-state-file=" ++ v) (fun v => POk (set_state v c))); [reflexivity|]. by_from. reflexivity.
  - transitivity (from 16 (lit "--identity-file=" ++ v) (fun v => POk (set_identity (Some v) c))); [reflexivity|]. by_from. reflexivity.
  - transitivity (if feature then from 13 (lit "--rtsp-paths=" ++ v) (fun v => POk (set_rtsp v c)) else PErr); [reflexivity|]. rewrite H. by_from. reflexivity.
  - transitivity (if feature then from 14 (lit "--mjpeg-paths=" ++ v) (fun v => POk (set_mjpeg v c)) else PErr); [reflexivity|]. rewrite H. by_from. reflexivity.
  - transitivity (from 12 (lit "--lock-file=" ++ v) (fun v => POk (set_lock (Some v) c))); [reflexivity|]. by_from. reflexivity.
  - transitivity (from 18 (lit "--device-category=" ++ v) (fun v => POk (set_cat (described v) c))); [reflexivity|]. by_from.
    now rewrite (description_unique v d H).
  - transitivity (from 14 (lit "--device-type=" ++ v) (fun v => POk (set_type (described v) c))); [reflexivity|]. by_from.
    now rewrite (description_unique v d H).
  - transitivity (from 16 (lit "--device-vendor=" ++ v) (fun v => POk (set_vendor (described v) c))); [reflexivity|]. by_from.
    now rewrite (description_unique v d H).
Qed.

Notation wr := (written feature get_mac resolve resolve_host).

Ltac eat_lit := match goal with
  | H : (if beq ?x ?l then _ else _) = _ |- _ =>
      let E := fresh "Eb" in destruct (beq x l) eqn:E; [apply beq_spec in E; rewrite E in * |]
  | H : (if starts_with ?l ?x then _ else _) = _ |- _ =>
      let E := fresh "Es" in let v := fresh "v" in let Ex := fresh "Ex" in
      destruct (starts_with l x) eqn:E; [apply starts_with_iff in E; destruct E as [v Ex]; rewrite Ex in * |]
  end.

Lemma pbind_opt {A : Type} (o : option A) (f : A -> cparser) r :
  pbind (of_result (opt_result o)) (fun n => POk (f n)) = r ->
  (exists n, o = Some n /\ r = POk (f n)) \/ r = PErr.
Proof. destruct o; cbn; intros <-; [left; eauto|right; reflexivity]. Qed.

Lemma single_inv x c r : utf8_valid x = true -> asin x c = r ->
  (exists o, wr [x] o /\ exists c', r = POk c') \/ r = PErr \/ (r = PExit /\ (x = lit "--help" \/ x = lit "--version")).
Proof.
  intros Hv H. unfold apply_single in H.
  eat_lit. { destruct feature eqn:Ef; [|auto]. left. exists ODiscovery. split; [now constructor|eauto]. }
  eat_lit. { left. exists OVerbose. split; [constructor|eauto]. }
  eat_lit. { left. exists OFlash. split; [constructor|eauto]. }
  eat_lit. { left. exists ODiagnostic. split; [constructor|eauto]. }
  eat_lit. { left. exists ONoGateway. split; [constructor|eauto]. }
  eat_lit. { left. exists (OStderr false). split; [constructor|eauto]. }
  eat_lit. { left. exists (OStderr true). split; [constructor|eauto]. }
  eat_lit. { right. right. auto. }
  eat_lit. { right. right. auto. }
  eat_lit. { rewrite from_lit in H; [|assumption|reflexivity|apply ascii_last; [reflexivity|discriminate]].
             left. eexists. split; [apply w_config|eauto]. }
  eat_lit. { rewrite from_lit in H; [|assumption|reflexivity|apply ascii_last; [reflexivity|discriminate]].
             left. eexists. split; [apply w_skel|eauto]. }
  eat_lit. { rewrite from_lit in H; [|assumption|reflexivity|apply ascii_last; [reflexivity|discriminate]].
             left. eexists. split; [apply w_state|eauto]. }
  eat_lit. { rewrite from_lit in H; [|assumption|reflexivity|apply ascii_last; [reflexivity|discriminate]].
             left. eexists. split; [apply w_ident|eauto]. }
  eat_lit. { destruct feature eqn:Ef; [|auto]. rewrite from_lit in H; [|assumption|reflexivity|apply ascii_last; [reflexivity|discriminate]].
             left. eexists. split; [now apply w_rtsp|eauto]. }
  eat_lit. { destruct feature eqn:Ef; [|auto]. rewrite from_lit in H; [|assumption|reflexivity|apply ascii_last; [reflexivity|discriminate]].
             left. eexists. split; [now apply w_mjpeg|eauto]. }
  eat_lit. { rewrite from_lit in H; [|assumption|reflexivity|apply ascii_last; [reflexivity|discriminate]].
             left. eexists. split; [apply w_log|eauto]. }
  eat_lit. { rewrite from_lit in H; [|assumption|reflexivity|apply ascii_last; [reflexivity|discriminate]].
             apply (pbind_opt _ (fun n => set_logsize n c)) in H as [(n & Hn & ->)|]; [|auto].
             left. eexists. split; [apply w_size; exact Hn|eauto]. }
  eat_lit. { rewrite from_lit in H; [|assumption|reflexivity|apply ascii_last; [reflexivity|discriminate]].
             apply (pbind_opt _ (fun n => set_logrot n c)) in H as [(n & Hn & ->)|]; [|auto].
             left. eexists. split; [apply w_rot; exact Hn|eauto]. }
  eat_lit. { rewrite from_lit in H; [|assumption|reflexivity|apply ascii_last; [reflexivity|discriminate]].
             left. eexists. split; [apply w_lock|eauto]. }
  eat_lit. { rewrite from_lit in H; [|assumption|reflexivity|apply ascii_last; [reflexivity|discriminate]].
             left. eexists. split; [apply w_cat; apply described_spec|eauto]. }
  eat_lit. { rewrite from_lit in H; [|assumption|reflexivity|apply ascii_last; [reflexivity|discriminate]].
             left. eexists. split; [apply w_type; apply described_spec|eauto]. }
  eat_lit. { rewrite from_lit in H; [|assumption|reflexivity|apply ascii_last; [reflexivity|discriminate]].
             left. eexists. split; [apply w_vendor; apply described_spec|eauto]. }
  auto.
Qed.

Lemma add_service_inv c r p : add_service c r = p -> r <> RPanic -> (exists s, r = ROk s /\ exists c', p = POk c') \/ p = PErr.
Proof. unfold add_service. destruct r; cbn; intros <- Hn; [left; eauto|auto|contradiction]. Qed.

Lemma value_inv x v c r : utf8_valid v = true -> aval x v c = r ->
  (exists o, wr [x; v] o /\ exists c', r = POk c') \/ r = PErr.
Proof.
  intros Hv H. unfold apply_value in H.
  eat_lit. { left. eexists. split; [constructor|eauto]. }
  eat_lit. { destruct feature eqn:Ef; [|auto]. left. eexists. split; [now constructor|eauto]. }
  eat_lit. { apply (pbind_opt _ (fun m => set_mac (Some m) c)) in H as [(m & Hm & ->)|]; [|auto].
             left. eexists. split; [apply w_i; exact Hm|eauto]. }
  eat_lit. { apply add_service_inv in H as [(s & Hs & Hc)|]; [| auto | now apply svc_url_nopanic].
             left. exists (OService s). split; [|exact Hc]. apply w_r.
             now apply (svc_url_iff (lit "rtsp") 554 svc_rtsp svc_locked_rtsp RTSP LockedRTSP v s (fun _ _ _ => eq_refl) (fun _ _ _ => eq_refl) Hv). }
  eat_lit. { apply add_service_inv in H as [(s & Hs & Hc)|]; [| auto | now apply svc_url_nopanic].
             left. exists (OService s). split; [|exact Hc]. apply w_m.
             now apply (svc_url_iff (lit "http") 80 svc_mjpeg svc_locked_mjpeg MJPEG LockedMJPEG v s (fun _ _ _ => eq_refl) (fun _ _ _ => eq_refl) Hv). }
  eat_lit. { apply add_service_inv in H as [(s & Hs & Hc)|]; [| auto | destruct (resolve v); discriminate].
             left. destruct (resolve v) as [a|] eqn:Er; [|discriminate]. eexists. split; [apply w_h; exact Er|exact Hc]. }
  eat_lit. { apply add_service_inv in H as [(s & Hs & Hc)|]; [| auto | destruct (resolve v); discriminate].
             left. destruct (resolve v) as [a|] eqn:Er; [|discriminate]. eexists. split; [apply w_t; exact Er|exact Hc]. }
  auto.
Qed.

(** ** Whole command lines *)

Notation pargs := (parse_args feature get_mac resolve resolve_host).
Notation ln := (line feature get_mac resolve resolve_host).
Definition valid_args (l : list bytes) : Prop := Forall (fun x => utf8_valid x = true) l.
Definition apply_all (os : list opt) (c : cparser) : cparser := fold_left (fun c o => apply_opt o c) os c.

Lemma line_prefix args os more : ln args os -> valid_args args -> forall c, pargs c (args ++ more) = pargs (apply_all os c) more.
Proof.
  induction 1 as [|a o rest os Hw Hl IH]; intros Hv c; [reflexivity|].
  apply Forall_app in Hv as [Hva Hvr].
  destruct (written_applies a o c Hva Hw) as [(x & -> & Ht & Ha)|(x & v & -> & Ht & Ha)].
  - cbn [app parse_args]. rewrite Ht, Ha. apply IH; auto.
  - cbn [app parse_args]. rewrite Ht, Ha. apply IH; auto.
Qed.
Lemma line_ok args os c : ln args os -> valid_args args -> pargs c args = POk (apply_all os c).
Proof. intros Hl Hv. rewrite <- (app_nil_r args), (line_prefix args os [] Hl Hv). reflexivity. Qed.

Lemma args_inv args : valid_args args -> forall c,
  (exists os, ln args os /\ pargs c args = POk (apply_all os c)) \/
  (pargs c args = PErr /\ (forall os, ~ ln args os)) \/
  (pargs c args = PExit /\ asks_exit feature get_mac resolve resolve_host args /\ (forall os, ~ ln args os)).
Proof.
  assert (Hno : forall args c r, valid_args args -> pargs c args = r -> (forall c', r <> POk c') -> forall os, ~ ln args os).
  { intros l c r Hv Hr Hn os Hl. rewrite (line_ok l os c Hl Hv) in Hr. symmetry in Hr. now apply Hn in Hr. }
  remember (List.length args) as n eqn:En. revert args En. induction n as [n IH] using lt_wf_ind. intros args -> Hv c.
  destruct args as [|x rest].
  { left. exists []. split; [constructor|reflexivity]. }
  pose proof (Forall_inv Hv) as Hvx. pose proof (Forall_inv_tail Hv) as Hvr. cbv beta in Hvx.
  destruct (pargs c (x :: rest)) as [c'| | |] eqn:Ep.
  - left. cbn [parse_args] in Ep. destruct (takes_value x) eqn:Et.
    + destruct rest as [|v rest]; [discriminate|]. pose proof (Forall_inv Hvr) as Hvv. cbv beta in Hvv.
      destruct (aval x v c) as [c1| | |] eqn:Ea; try discriminate.
      destruct (value_inv x v c _ Hvv Ea) as [(o & Ho & _)|]; [|discriminate].
      destruct (written_applies [x; v] o c) as [(y & Hy & _)|(y & w & Hy & Ht & Hap)]; [repeat constructor; auto|exact Ho|discriminate|].
      injection Hy as <- <-. rewrite Hap in Ea. injection Ea as <-.
      destruct (IH (List.length rest) ltac:(cbn; lia) rest eq_refl (Forall_inv_tail Hvr) (apply_opt o c)) as [(os & Hl & Hp)|[(Hp & _)|(Hp & _)]];
        rewrite Hp in Ep; try discriminate. injection Ep as <-.
      exists (o :: os). split; [exact (l_cons _ _ _ _ [x; v] o rest os Ho Hl)|reflexivity].
    + destruct (asin x c) as [c1| | |] eqn:Ea; try discriminate.
      destruct (single_inv x c _ Hvx Ea) as [(o & Ho & _)|[|[? _]]]; try discriminate.
      destruct (written_applies [x] o c) as [(y & Hy & Ht & Hap)|(y & w & Hy & _)]; [repeat constructor; auto|exact Ho| |discriminate].
      injection Hy as <-. rewrite Hap in Ea. injection Ea as <-.
      destruct (IH (List.length rest) ltac:(cbn; lia) rest eq_refl Hvr (apply_opt o c)) as [(os & Hl & Hp)|[(Hp & _)|(Hp & _)]];
        rewrite Hp in Ep; try discriminate. injection Ep as <-.
      exists (o :: os). split; [exact (l_cons _ _ _ _ [x] o rest os Ho Hl)|reflexivity].
  - right. left. split; [reflexivity|]. apply (Hno _ _ _ Hv Ep). discriminate.
  - exfalso. cbn [parse_args] in Ep. destruct (takes_value x).
    + destruct rest as [|v rest]; [discriminate|]. pose proof (Forall_inv Hvr) as Hvv. cbv beta in Hvv.
      destruct (aval x v c) as [c1| | |] eqn:Ea; try discriminate.
      * destruct (IH (List.length rest) ltac:(cbn; lia) rest eq_refl (Forall_inv_tail Hvr) c1) as [(os & Hl & Hp)|[(Hp & _)|(Hp & _)]];
          rewrite Hp in Ep; discriminate.
      * destruct (value_inv x v c _ Hvv Ea) as [(o & Ho & c' & Hc)|]; discriminate.
    + destruct (asin x c) as [c1| | |] eqn:Ea; try discriminate.
      * destruct (IH (List.length rest) ltac:(cbn; lia) rest eq_refl Hvr c1) as [(os & Hl & Hp)|[(Hp & _)|(Hp & _)]];
          rewrite Hp in Ep; discriminate.
      * destruct (single_inv x c _ Hvx Ea) as [(o & Ho & c' & Hc)|[|[? _]]]; discriminate.
  - right. right. split; [reflexivity|]. split; [|apply (Hno _ _ _ Hv Ep); discriminate].
    cbn [parse_args] in Ep. destruct (takes_value x) eqn:Et.
    + destruct rest as [|v rest]; [discriminate|]. pose proof (Forall_inv Hvr) as Hvv. cbv beta in Hvv.
      destruct (aval x v c) as [c1| | |] eqn:Ea; try discriminate.
      * destruct (IH (List.length rest) ltac:(cbn; lia) rest eq_refl (Forall_inv_tail Hvr) c1) as [(os & Hl & Hp)|[(Hp & _)|(Hp & (b & a & os & y & E & Hb & Hy) & _)]];
          try (rewrite Hp in Ep; discriminate).
        destruct (value_inv x v c _ Hvv Ea) as [(o & Ho & _)|]; [|discriminate].
        exists (x :: v :: b), a, (o :: os), y. split; [rewrite E; reflexivity|]. split; [|exact Hy].
        exact (l_cons _ _ _ _ [x; v] o b os Ho Hb).
      * destruct (value_inv x v c _ Hvv Ea) as [(o & Ho & c' & Hc)|]; discriminate.
    + destruct (asin x c) as [c1| | |] eqn:Ea; try discriminate.
      * destruct (IH (List.length rest) ltac:(cbn; lia) rest eq_refl Hvr c1) as [(os & Hl & Hp)|[(Hp & _)|(Hp & (b & a & os & y & E & Hb & Hy) & _)]];
          try (rewrite Hp in Ep; discriminate).
        destruct (single_inv x c _ Hvx Ea) as [(o & Ho & _)|[|[? _]]]; try discriminate.
        exists (x :: b), a, (o :: os), y. split; [rewrite E; reflexivity|]. split; [|exact Hy].
        exact (l_cons _ _ _ _ [x] o b os Ho Hb).
      * destruct (single_inv x c _ Hvx Ea) as [(o & Ho & c' & Hc)|[|[_ Hx]]]; try discriminate.
        exists [], rest, [], x. split; [reflexivity|]. split; [constructor|exact Hx].
Qed.
End Options.

(** ** Settings *)

Lemma all_fold {B : Type} (g : cparser -> B) (h : B -> opt -> B) :
  (forall o c, g (apply_opt o c) = h (g c) o) -> forall os c, g (apply_all os c) = fold_left h os (g c).
Proof. intros H. induction os as [|o os IH]; intros c; [reflexivity|]. cbn [apply_all fold_left]. unfold apply_all in IH. rewrite IH, H. reflexivity. Qed.
Lemma all_last {A : Type} (g : cparser -> A) (f : opt -> option A) os c :
  (forall o c, g (apply_opt o c) = match f o with Some x => x | None => g c end) -> g (apply_all os c) = last_given f (g c) os.
Proof. intros H. apply (all_fold g (fun acc o => match f o with Some x => x | None => acc end)). exact H. Qed.
Lemma all_list {A : Type} (g : cparser -> list A) (f : opt -> option A) os c :
  (forall o c, g (apply_opt o c) = g c ++ match f o with Some x => [x] | None => [] end) -> g (apply_all os c) = g c ++ all_given f os.
Proof.
  intros H. revert c. induction os as [|o os IH]; intros c; [now rewrite app_nil_r|].
  unfold apply_all in *. cbn [fold_left all_given flat_map]. rewrite IH, H, <- app_assoc. reflexivity.
Qed.
Lemma all_flag (g : cparser -> bool) (f : opt -> bool) os c :
  (forall o c, g (apply_opt o c) = g c || f o) -> g (apply_all os c) = g c || given f os.
Proof.
  intros H. revert c. induction os as [|o os IH]; intros c; [now rewrite orb_false_r|].
  unfold apply_all in *. cbn [fold_left given existsb]. rewrite IH, H, <- orb_assoc. reflexivity.
Qed.

Ltac setting := let o := fresh in let c := fresh in intros o c; destruct o; cbn; rewrite ?app_nil_r, ?orb_true_r, ?orb_false_r; try reflexivity.

Lemma build_obeys first addr os r :
  build first (apply_all os (set_addr addr cparser_new)) = ROk r -> obeys first addr os r.
Proof.
  set (c0 := set_addr addr cparser_new). unfold build. intros H.
  destruct (match cp_mac (apply_all os c0) with Some m => Some m | None => first end) as [m|] eqn:Em; [|discriminate].
  injection H as <-. constructor; cbn [r_addr r_mac r_services r_diag r_gateway r_disc r_white r_verbose r_cat r_type r_vendor r_logger r_log r_config r_lock r_skel r_state r_identity r_rtsp r_mjpeg r_ca].
  - rewrite (all_last cp_addr (fun _ => None)) by setting. unfold last_given. clear. induction os as [|o os IH]; [reflexivity|exact IH].
  - rewrite <- Em.
    assert (Hg : forall d c, (match cp_mac c with Some m => Some m | None => first end) = d ->
       match cp_mac (apply_all os c) with Some m => Some m | None => first end =
       last_given (fun o => match o with OMac m => Some (Some m) | _ => None end) d os).
    { clear. induction os as [|o os IH]; intros d c Hd; [exact Hd|]. unfold apply_all in *. cbn [fold_left]. unfold last_given in *. cbn [fold_left].
      apply IH. destruct o; cbn; auto. }
    apply Hg. reflexivity.
  - rewrite (all_list cp_services (fun o => match o with OService s => Some s | _ => None end)) by setting. reflexivity.
  - rewrite (all_flag cp_diag (fun o => match o with ODiagnostic => true | _ => false end)) by setting. reflexivity.
  - assert (Hg : forall c, cp_gateway (apply_all os c) = cp_gateway c && negb (given (fun o => match o with ONoGateway => true | _ => false end) os)).
    { clear. induction os as [|o os IH]; intros c; [cbn; now rewrite andb_true_r|]. unfold apply_all in *. cbn [fold_left given existsb]. rewrite IH.
      destruct o; cbn; rewrite ?andb_false_r; reflexivity. }
    rewrite Hg. reflexivity.
  - rewrite (all_flag cp_disc (fun o => match o with ODiscovery | OWhitelist _ => true | _ => false end)) by setting. reflexivity.
  - rewrite (all_list cp_white (fun o => match o with OWhitelist s => Some s | _ => None end)) by setting. reflexivity.
  - rewrite (all_flag cp_verbose (fun o => match o with OVerbose => true | _ => false end)) by setting. reflexivity.
  - apply (all_last cp_cat). setting.
  - apply (all_last cp_type). setting.
  - apply (all_last cp_vendor). setting.
  - apply (all_last cp_logger). setting. destruct pretty; reflexivity.
  - f_equal; [f_equal|].
    + apply (all_last cp_log). setting.
    + apply (all_last cp_logsize). setting.
    + apply (all_last cp_logrot). setting.
  - apply (all_last cp_config). setting.
  - f_equal. apply (all_last cp_skel). setting.
  - f_equal. apply (all_last cp_state). setting.
  - apply (all_last cp_identity). setting.
  - f_equal. apply (all_last cp_rtsp). setting.
  - f_equal. apply (all_last cp_mjpeg). setting.
  - rewrite (all_list cp_ca (fun o => match o with OCa s => Some s | _ => None end)) by setting. reflexivity.
  - apply (all_last cp_lock). setting.
Qed.

(** ** Default port *)
Lemma service_address_expected a : expected_address a (service_address a).
Proof.
  unfold expected_address, service_address. split.
  - intros [H|(x & ->)].
    + apply find_char_none in H. rewrite H, orb_true_r. reflexivity.
    + replace (ends_with [93] (91 :: x ++ [93])) with true; [reflexivity|]. symmetry. apply ends_with_iff. exists (91 :: x). reflexivity.
  - intros h p _ [Hp Hd] ->.
    replace (ends_with [93] (h ++ 58 :: p)) with false.
    + destruct (find_char 58 (h ++ 58 :: p)) eqn:E; [reflexivity|]. apply find_char_none in E. exfalso. apply E, in_or_app. right. now left.
    + symmetry. destruct (ends_with [93] (h ++ 58 :: p)) eqn:E; [|reflexivity]. apply ends_with_iff in E as (r & E).
      destruct (exists_last Hp) as (p' & x & ->). rewrite Forall_app in Hd. destruct Hd as [_ Hx]. pose proof (Forall_inv Hx) as H. cbv beta in H.
      replace (h ++ 58 :: p' ++ [x]) with ((h ++ 58 :: p') ++ [x]) in E by (rewrite <- app_assoc; reflexivity).
      apply app_inj_tail in E as [_ ->]. lia.
Qed.

Section Final.
Variable feature : bool.
Variable get_mac : bytes -> option N.
Variable resolve : bytes -> option saddr.
Variable resolve_host : bytes -> N -> option saddr.
Notation pline := (parse_line feature get_mac resolve resolve_host).
Notation ln := (line feature get_mac resolve resolve_host).

Lemma line_accepted app addr rest os first r : valid_args rest -> ln rest os ->
  exists c, pline (app :: addr :: rest) = POk c /\ (build first c = ROk r -> obeys first (service_address addr) os r).
Proof.
  intros Hv Hl. eexists. split; [unfold parse_line; cbn [tl]; apply line_ok; eauto|]. apply build_obeys.
Qed.
Lemma line_refused app addr rest : valid_args rest -> (forall os, ~ ln rest os) ->
  pline (app :: addr :: rest) = PErr \/
  (pline (app :: addr :: rest) = PExit /\ asks_exit feature get_mac resolve resolve_host rest).
Proof.
  intros Hv Hn. unfold parse_line. cbn [tl].
  destruct (args_inv feature get_mac resolve resolve_host rest Hv (set_addr (service_address addr) cparser_new)) as [(os & Hl & _)|[(Hp & _)|(Hp & Ha & _)]].
  - exfalso. eapply Hn; eauto.
  - auto.
  - auto.
Qed.
End Final.
