(** From a camera that answers to what the server knows. *)
From Coq Require Import String NArith ZArith List Bool Lia ZifyBool ZifyNat ZifyN.
From Verif.Model Require Import Bytes Frame Text Service Control Http Sdp Discovery Raw Scan Alist SvcTable Session Manager Client Config.
From Verif.Spec Require Import ControlSpec ManagerSpec ClientSpec TableSpec ConfigSpec ReachSpec CurrentSpec RawSpec DiscoverySpec ScanSpec PaceSpec OriginSpec AnnounceSpec.
From Verif.Proofs Require Import BytesFacts DiscMaps DiscPick DiscReport ScanPf ScanWhole PacePf OriginPf FoundPf.
Import ListNotations.
Local Open Scope N_scope.
Local Open Scope list_scope.

(** ** The port that is chosen *)
Lemma rank_first : forall before p after, ~ In p before -> rank (before ++ p :: after) p = length before.
Proof.
  induction before as [|x l IH]; intros p after H; cbn [app rank length]; [now rewrite N.eqb_refl|].
  destruct (p =? x) eqn:E; [apply N.eqb_eq in E; subst x; contradict H; now left|]. f_equal. apply IH. intros I. apply H. now right.
Qed.
Lemma rank_later : forall before p after q, ~ In q before -> q <> p -> (length before < rank (before ++ p :: after) q)%nat.
Proof.
  induction before as [|x l IH]; intros p after q H D; cbn [app rank length].
  - destruct (q =? p) eqn:E; [apply N.eqb_eq in E; contradiction|lia].
  - destruct (q =? x) eqn:E; [apply N.eqb_eq in E; subst x; contradict H; now left|]. apply -> Nat.succ_lt_mono. apply IH; [|exact D]. intros I. apply H. now right.
Qed.
Lemma best_chosen ports l mac a before after : NoDup ports -> ports = before ++ sa_port a :: after -> NoDup l -> In (mac, a) l ->
  (forall m b, In (m, b) l -> sa_ip b = sa_ip a -> m = mac /\ ~ In (sa_port b) before) ->
  In (mac, a) (filter_duplicit l (get_port_priorities ports)).
Proof.
  intros NP Ep NL I U. apply (filter_iff ports NP). apply in_split in I as (x & y & El). exists x, y. split; [exact El|].
  assert (Np : ~ In (sa_port a) before) by (rewrite Ep in NP; apply NoDup_remove_2 in NP; intros J; apply NP, in_or_app; now left).
  assert (G : forall c, In c l -> sa_ip (snd c) = sa_ip a -> (rank ports (sa_port a) <= rank ports (sa_port (snd c)))%nat /\
              (c <> (mac, a) -> (rank ports (sa_port a) < rank ports (sa_port (snd c)))%nat)).
  { intros [m b] H Ei. cbn [snd] in *. destruct (U m b H Ei) as (-> & Nb). rewrite Ep, rank_first by exact Np.
    destruct (N.eq_dec (sa_port b) (sa_port a)) as [Eq|Ne].
    - rewrite Eq, rank_first by exact Np. split; [lia|]. intros D. contradict D. destruct a, b. cbn in *. congruence.
    - pose proof (rank_later before (sa_port a) after (sa_port b) Nb Ne). split; lia. }
  cbn [snd]. split; intros c H Ei.
  - apply G; [rewrite El; apply in_or_app; now left|exact Ei|]. intros ->. rewrite El in NL. apply NoDup_remove_2 in NL. apply NL, in_or_app. now left.
  - apply G; [rewrite El; apply in_or_app; right; now right|exact Ei].
Qed.

(** ** One scan *)
Lemma services_in r i v : service_at r i = Some v -> In v (services_of r).
Proof. intros H. unfold service_at in H. apply mget_in in H. unfold services_of. apply in_map_iff. now exists (i, v). Qed.
Section One.
Variable n : scanning.
Variable r : scan.
Hypothesis R : real n.
Hypothesis E : result_of n = Gives r.
Notation lossy := (n_lossy n).
Notation describe := (n_describe n).

Lemma result_net : exists l, scan_net lossy (n_lc n) (n_uc n) describe (n_header n) (n_rtsp n) (n_rtsp_paths n) (n_mjpeg_paths n) (n_whitelist n) l = ROk r /\
  sc_hosts r = sc_hosts (find_open_ports (n_whitelist n) l).
Proof using R E.
  destruct R as (OB & NT). pose proof (whole_cases (n_air n) OB (n_lossy n) (n_lc n) (n_uc n) (n_describe n) (n_header n) (n_rtsp n)
    (n_rtsp_paths n) (n_mjpeg_paths n) (n_whitelist n) (n_devices n) NT) as W. fold (result_of n) in W. rewrite E in W.
  destruct W as (l & _ & SN & HH). exists l. now split.
Qed.

Hypothesis CK : clocks (n_air n).
Hypothesis PR : paired r.
Variables (name : bytes) (d : device) (pace delay : N).
Hypothesis J : In (name, d) (n_devices n).
Hypothesis Q : allowed (n_whitelist n) name.
Hypothesis W : working (n_air n) name.
Hypothesis F : fast d r pace delay.

Lemma serves_port mac ip port ports speaks : incl ports camera_ports -> serves n name d pace delay mac ip port ports speaks -> has_port r (mac, V4 ip) port.
Proof using R E CK J Q W F.
  intros IC [IN AR AP _ (b & c & Ep & _)]. destruct R as (OB & NT), F as (F1 & F2).
  destruct (prompt_found (n_air n) OB CK (n_lossy n) (n_lc n) (n_uc n) (n_describe n) (n_header n) (n_rtsp n)
    (n_rtsp_paths n) (n_mjpeg_paths n) (n_whitelist n) (n_devices n) NT r E name d pace delay J Q W F1) as (hosts & H1 & H2 & H3).
  destruct (H1 mac ip IN AR) as (_ & H4). apply H3; [|exact H4| |exact AP].
  - assert (nlen hosts * 13 * pace <= nlen (hosts_of r) * 13 * pace) by (apply N.mul_le_mono_r, N.mul_le_mono_r; exact H2). lia.
  - apply IC. rewrite Ep. apply in_or_app. right. now left.
Qed.
Lemma port_known s k p : has_port s k p -> known s k.
Proof. intros (h & G & _). unfold known, host_flags. rewrite G. discriminate. Qed.

Lemma rtsp_reported mac ip port path : rtsp_camera n name d pace delay mac ip port path ->
  In (svc_rtsp mac (at_port ip port) path) (services_of r) /\ In (svc_tcp mac (at_port ip port)) (services_of r).
Proof using R E CK PR J Q W F.
  intros (SV & pre & post & Ep & PL & NP). assert (IC : incl rtsp_ports camera_ports) by (intros x; cbn; tauto).
  pose proof (serves_port _ _ _ _ _ IC SV) as HP. destruct result_net as (l & SN & HH). set (s := find_open_ports (n_whitelist n) l) in *.
  assert (Kn : forall k, known r k <-> known s k) by (intros k; unfold known, host_flags; now rewrite HH).
  assert (Kp : forall k p, has_port r k p <-> has_port s k p) by (intros k p; unfold has_port; now rewrite HH).
  pose proof (proj1 (open_ports_spec (n_whitelist n) l)) as O. fold s in O.
  assert (CH : In (mac, at_port ip port) (rtsp_chosen (n_rtsp n) s)).
  { destruct SV as [_ _ _ SP (before & after & Eb & NB)]. apply (best_chosen RTSP_PORTS _ mac (at_port ip port) before after ports_nodup_rtsp).
    - exact Eb.
    - apply NoDup_filter, socket_addrs_nodup, O.
    - apply filter_In. split; [apply (socket_addrs_in s O); now apply Kp|]. cbn [snd]. rewrite SP.
      replace (candidate RTSP_PORTS (at_port ip port)) with true; [reflexivity|]. symmetry. apply candidate_iff. change RTSP_PORTS with rtsp_ports. rewrite Eb. apply in_or_app. right. now left.
    - intros m b H Ei. apply filter_In in H as (H & C). apply (socket_addrs_in s O) in H. cbn [snd] in C. split.
      + apply (PR m (sa_ip b) mac (V4 ip)); [apply Kn; now apply port_known in H|now apply port_known in HP|exact Ei].
      + intros I. apply (NB _ I). apply andb_true_iff in C as (_ & C). destruct b as [bi bp]. cbn [sa_ip sa_port at_port] in *. now subst bi. }
  destruct (report_complete lossy (n_lc n) (n_uc n) describe (n_header n) (n_rtsp n) (n_rtsp_paths n) (n_mjpeg_paths n) (n_whitelist n) l) as (r' & SN' & HR & _).
  { intros m i j A B. apply Kn in A, B. now apply (PR m i m j). }
  rewrite SN in SN'. injection SN' as <-. destruct (HR _ _ CH) as (T & v & Ev & Sv). split; [|exact (services_in _ _ _ T)].
  rewrite Ep in Ev. rewrite (probe_first false lossy (n_lc n) (n_uc n) describe mac (at_port ip port) pre path post SSupported) in Ev.
  - injection Ev as <-. exact (services_in _ _ _ Sv).
  - intros q I. destruct (NP q I) as (N1 & N2). destruct (type_cases lossy (n_lc n) (n_uc n) describe (at_port ip port) q) as (C1 & _ & C3).
    destruct (type_total lossy (n_lc n) (n_uc n) describe (at_port ip port) q) as (t & Et). exists t. split; [exact Et|]. intros [->| ->]; [apply N1, C1, Et|apply N2, C3, Et].
  - apply type_cases. exact PL.
  - now left.
Qed.

Lemma http_reported mac ip port path : n_lc n [] = [] -> http_camera n name d pace delay mac ip port path ->
  In (svc_mjpeg mac (at_port ip port) path) (services_of r) /\ In (svc_http mac (at_port ip port)) (services_of r).
Proof using R E CK PR J Q W F.
  intros LN (SV & pre & post & Ep & PL & NP). assert (IC : incl http_ports camera_ports) by (intros x; cbn; tauto).
  pose proof (serves_port _ _ _ _ _ IC SV) as HP. destruct result_net as (l & SN & HH). set (s := find_open_ports (n_whitelist n) l) in *.
  assert (Kn : forall k, known r k <-> known s k) by (intros k; unfold known, host_flags; now rewrite HH).
  assert (Kp : forall k p, has_port r k p <-> has_port s k p) by (intros k p; unfold has_port; now rewrite HH).
  pose proof (proj1 (open_ports_spec (n_whitelist n) l)) as O. fold s in O.
  assert (HS : forall a, is_http (n_header n) a = true <-> n_header n a [47] <> None).
  { intros a. unfold is_http. change (lit "/") with [47]. destruct (n_header n a [47]); split; congruence. }
  assert (CH : In (mac, at_port ip port) (http_chosen (n_header n) s)).
  { destruct SV as [_ _ _ SP (before & after & Eb & NB)]. apply (best_chosen HTTP_PORTS _ mac (at_port ip port) before after ports_nodup_http).
    - exact Eb.
    - apply NoDup_filter, socket_addrs_nodup, O.
    - apply filter_In. split; [apply (socket_addrs_in s O); now apply Kp|]. cbn [snd]. apply HS in SP. rewrite SP.
      replace (candidate HTTP_PORTS (at_port ip port)) with true; [reflexivity|]. symmetry. apply candidate_iff. change HTTP_PORTS with http_ports. rewrite Eb. apply in_or_app. right. now left.
    - intros m b H Ei. apply filter_In in H as (H & C). apply (socket_addrs_in s O) in H. cbn [snd] in C. split.
      + apply (PR m (sa_ip b) mac (V4 ip)); [apply Kn; now apply port_known in H|now apply port_known in HP|exact Ei].
      + intros I. apply (NB _ I). apply HS. apply andb_true_iff in C as (_ & C). destruct b as [bi bp]. cbn [sa_ip sa_port at_port] in *. now subst bi. }
  destruct (report_complete lossy (n_lc n) (n_uc n) describe (n_header n) (n_rtsp n) (n_rtsp_paths n) (n_mjpeg_paths n) (n_whitelist n) l) as (r' & SN' & _ & HR).
  { intros m i j A B. apply Kn in A, B. now apply (PR m i m j). }
  rewrite SN in SN'. injection SN' as <-. destruct (HR _ _ CH) as (T & Mv). split; [|exact (services_in _ _ _ T)].
  apply (services_in r (to_ident (svc_mjpeg mac (at_port ip port) path))). apply Mv. apply mjpeg_first. exists pre, path, post. split; [exact Ep|]. split.
  - intros q I. destruct (NP q I) as (N1 & N2). destruct (get_mjpeg_stream (n_lc n) (n_header n) mac (at_port ip port) q) as [v|] eqn:G; [|exact G].
    apply (mjpeg_types _ _ _ _ _ _ LN) in G as (h & Gh & [(A & B & _)|(A & _)]); exfalso; [apply N1|apply N2]; now exists h.
  - apply (mjpeg_types _ _ _ _ _ _ LN). destruct PL as (h & A & B & C). exists h. split; [exact A|]. left. auto.
Qed.
End One.

(** ** Services of a report can be sent *)
Lemma rtsp_loop_path lossy lc uc describe mac a paths : forall res v, rtsp_loop false lossy lc uc describe mac a paths res = ROk v ->
  forall p, s_path v = Some p -> s_path res = Some p \/ In p paths.
Proof.
  induction paths as [|q paths IH]; intros res v; cbn [rtsp_loop]; [intros [= <-]; now left|]. unfold get_rtsp_stream.
  destruct (get_rtsp_stream_type _ _ _ _ _ _ _) as [[]| |]; try discriminate; cbn [s_type svc_rtsp svc_locked_rtsp svc_unsupported_rtsp]; intros H p Hp.
  all: try (injection H as <-; cbn in Hp; first [discriminate Hp | injection Hp as <-; right; now left]).
  all: destruct (IH _ _ H p Hp) as [X|X]; [|right; now right]; first [injection X as <-; right; now left | now left].
Qed.
Lemma mjpeg_path lc get_header mac a paths : forall v, find_mjpeg_path lc get_header paths mac a = Some v -> forall p, s_path v = Some p -> In p paths.
Proof.
  induction paths as [|q paths IH]; intros v; cbn [find_mjpeg_path]; [discriminate|]. unfold get_mjpeg_stream at 1. intros H p Hp.
  destruct (get_header a q) as [h|]; [|right; now apply (IH v)]. destruct (mjpeg_stream_type lc h); try (right; now apply (IH v)); injection H as <-; cbn in Hp; try discriminate Hp.
  injection Hp as <-. now left.
Qed.
Lemma result_plain n r : real n -> clean_paths n -> result_of n = Gives r -> forall v, In v (services_of r) -> built v /\ plain v /\ svc_is_control v = false.
Proof.
  intros R CP E v H. destruct (result_ok n r R E) as (Or & B). split; [now apply B|]. apply (services_at r v Or) in H. destruct (result_net n r R E) as (l & SN & _).
  destruct (report_sound _ _ _ _ _ _ _ _ _ _ _ SN _ _ H) as (mac & a & Hm & Ha & _ & _ & T). cbv zeta in T. destruct R as (OB & NT).
  destruct (services_heard (n_air n) OB (n_lossy n) (n_lc n) (n_uc n) (n_describe n) (n_header n) (n_rtsp n)
    (n_rtsp_paths n) (n_mjpeg_paths n) (n_whitelist n) (n_devices n) NT r E _ _ H) as (name & d & A & I & C & hosts & mac' & ip & port & J & Q & S & Hm' & Ha' & (f & Hf & X) & _).
  rewrite Hm in Hm'. injection Hm' as <-. rewrite Ha in Ha'. injection Ha' as ->.
  destruct (sw_tcp _ _ _ _ _ _ _ S) as (flt & P & sent & _ & _ & _ & ->). destruct (OB name flt sent f Hf) as (WF & _).
  destruct X as (_ & _ & _ & _ & _ & _ & X1 & X2 & X3).
  assert (Pa : forall p, s_path v = Some p -> In p (n_rtsp_paths n) \/ In p (n_mjpeg_paths n)).
  { intros p Hp. destruct T as [(_ & _ & T)|[(T & _)|[(_ & _ & T)|(T & _)]]].
    - unfold find_rtsp_stream in T. destruct (rtsp_loop_path _ _ _ _ _ _ _ _ _ T p Hp) as [Y|Y]; [discriminate Y|now left].
    - specialize (B v ltac:(exact (services_in _ _ _ H))). inversion B; subst v; cbn in T, Hp; try discriminate T; discriminate Hp.
    - right. exact (mjpeg_path _ _ _ _ _ _ T p Hp).
    - specialize (B v ltac:(exact (services_in _ _ _ H))). inversion B; subst v; cbn in T, Hp; try discriminate T; discriminate Hp. }
  split; [split; [split; [|split]|]|].
  - intros m Em. rewrite Hm in Em. injection Em as <-. rewrite <- X1. exact (num_bound f 6 6 WF).
  - intros b Eb. rewrite Ha in Eb. injection Eb as <-. split; cbn [sa_ip sa_port wf_ip]; [rewrite <- X2; exact (num_bound f 26 4 WF)|rewrite <- X3; exact (num_bound f (inside f) 2 WF)].
  - intros p Hp. exact (proj1 (CP p (Pa p Hp))).
  - intros p Hp. exact (proj2 (CP p (Pa p Hp))).
  - unfold svc_is_control. destruct T as [(T & _)|[(T & _)|[([T|T] & _)|(T & _)]]]; [|rewrite T; reflexivity..].
    unfold rtsp_family in T. cbn [In] in T. destruct T as [T|[T|[T|[T|[]]]]]; rewrite <- T; reflexivity.
Qed.

(** ** The table and the server *)
Lemma table_part_app a b : table_part (a ++ b) = table_part a ++ table_part b.
Proof. unfold table_part. apply flat_map_app. Qed.
Lemma merged_adds l : adds (table_part (merged l)) = l.
Proof. unfold merged. induction l as [|[z s] l IH]; [reflexivity|]. cbn in *. unfold adds, table_part in IH. now rewrite IH. Qed.
Lemma merged_in : forall l s, NoDup (map (fun p => to_ident (snd p)) l) -> (exists x, In (x, s) l) -> forall d e,
  last_service (to_ident s) l d = Some s /\ exists x, In (x, s) l /\ last_added (to_ident s) l e = Some x.
Proof.
  induction l as [|[z v] l IH]; intros s ND (x & I) d e; [destruct I|]. cbn [map snd] in ND. inversion ND as [|? ? N1 N2]; subst. cbn [last_service last_added].
  assert (OUT : ~ In (to_ident v) (map (fun p => to_ident (snd p)) l) -> forall d e, last_service (to_ident v) l d = d /\ last_added (to_ident v) l e = e).
  { clear. induction l as [|[y u] l IH]; intros H d e; [now split|]. cbn [last_service last_added map snd] in *.
    destruct (ident_eq_dec (to_ident v) (to_ident u)) as [C|C]; [contradict H; left; congruence|]. destruct (ident_eq_dec (to_ident u) (to_ident v)) as [C'|_]; [congruence|].
    apply IH. intros X. apply H. now right. }
  destruct I as [[= -> ->]|I].
  - destruct (ident_eq_dec (to_ident s) (to_ident s)) as [_|C]; [|congruence]. destruct (OUT N1 (Some s) (Some x)) as (-> & ->). split; [reflexivity|]. exists x. split; [now left|reflexivity].
  - destruct (IH s N2 ltac:(now exists x) (if ident_eq_dec (to_ident s) (to_ident v) then Some v else d) (if ident_eq_dec (to_ident v) (to_ident s) then Some z else e)) as (A & y & Iy & B).
    split; [exact A|]. exists y. split; [now right|exact B].
Qed.
Lemma last_service_app k : forall a b d, last_service k (a ++ b) d = last_service k b (last_service k a d).
Proof. induction a as [|[z s] a IH]; intros b d; [reflexivity|]. cbn [app last_service]. apply IH. Qed.
Lemma last_added_app k : forall a b d, last_added k (a ++ b) d = last_added k b (last_added k a d).
Proof. induction a as [|[z s] a IH]; intros b d; [reflexivity|]. cbn [app last_added]. apply IH. Qed.

Section Told.
  Variables (n : scanning) (r : scan).
  Hypothesis R : real n.
  Hypothesis CP : clean_paths n.
  Hypothesis E : result_of n = Gives r.
  Variables (hash : ident -> N) (t0 : Z) (i : identity) (tb : table) (ys zs : list happening) (l : list (Z * service)) (now : Z) (w : world) (t : Z) (w' : world).
  Hypothesis K : consistent tb.
  Hypothesis Sane : sane tb.
  Hypothesis Ht : forall id s, stored tb id = Some s -> plain s.
  Hypothesis Wi : wf_identity i.
  Hypothesis B : built_ops (table_part ys).
  Hypothesis So : sane_ops (table_part ys).
  Hypothesis Ho : forall x s, In (x, s) (adds (table_part ys)) -> plain s.
  Hypothesis El : map snd l = services_of r.
  Hypothesis Tl : Forall (fun p => sane_time (fst p) /\ (now - 1200 <= fst p)%Z) l.
  Hypothesis Hc : shown_changes hash tb (table_part (ys ++ merged l ++ HTable (TRefresh now) :: zs)) < 2 ^ 32.
  Hypothesis Z0 : table_part zs = [].
  Hypothesis H : world_run hash (world_new t0 i tb) (ys ++ merged l ++ HTable (TRefresh now) :: zs) = ROk w.
  Hypothesis Rn : running (w_conn w) = true.
  Hypothesis G : registered (w_seen w) = true.
  Hypothesis L : (5 * SEC <= t - last_check t0 (w_seen w))%Z.
  Hypothesis S : world_step hash w (HTick t) = ROk w'.
  Lemma report_told s : In s (services_of r) -> exists id, In (announce (id, s)) (believes (w_seen w')).
  Proof using All.
    intros Hs. pose proof (proj1 (result_ok n r R E)) as Or. rewrite app_assoc in Hc, H.
    assert (EA : adds (table_part (ys ++ merged l)) = adds (table_part ys) ++ l) by now rewrite table_part_app, adds_app, merged_adds.
    assert (Pl : forall p, In p l -> built (snd p) /\ plain (snd p) /\ svc_is_control (snd p) = false).
    { intros p Hp. apply (result_plain n r R CP E). rewrite <- El. now apply in_map. }
    assert (ND : NoDup (map (fun p => to_ident (snd p)) l)).
    { rewrite <- (map_map snd to_ident), El. unfold services_of. rewrite map_map. rewrite (map_ext_in (fun x => to_ident (snd x)) fst); [exact (ok_services r Or)|].
      intros [k v] I. cbn [fst snd]. symmetry. exact (ok_idents r Or k v I). }
    assert (Ix : exists x, In (x, s) l). { rewrite <- El in Hs. apply in_map_iff in Hs as ([x v] & <- & I). now exists x. }
    destruct (merged_in l s ND Ix (last_service (to_ident s) (adds (table_part ys)) None) (last_added (to_ident s) (adds (table_part ys)) None)) as (A1 & x & I & A2).
    rewrite Forall_forall in Tl.
    apply (found_announced hash t0 i tb (ys ++ merged l) zs now w t w' K Sane Ht Wi) with (k := to_ident s) (x := x); try assumption.
    - unfold built_ops. rewrite EA. apply Forall_app. split; [exact B|]. apply Forall_forall. intros p Hp. now apply Pl.
    - unfold sane_ops. rewrite EA. apply Forall_app. split; [exact So|]. apply Forall_forall. intros p Hp. now apply Tl.
    - intros y v Hv. rewrite EA in Hv. apply in_app_or in Hv as [Hv|Hv]; [exact (Ho _ _ Hv)|]. exact (proj1 (proj2 (Pl _ Hv))).
    - now rewrite EA, last_service_app.
    - now rewrite EA, last_added_app.
    - exact (proj2 (proj2 (Pl _ I))).
    - exact (proj2 (Tl _ I)).
  Qed.
End Told.
Lemma cameras_found n name d pace delay r : well_scanned n name d pace delay r ->
  (forall mac ip port path, rtsp_camera n name d pace delay mac ip port path ->
     In (svc_rtsp mac (at_port ip port) path) (services_of r) /\ In (svc_tcp mac (at_port ip port)) (services_of r)) /\
  (n_lc n [] = [] -> forall mac ip port path, http_camera n name d pace delay mac ip port path ->
     In (svc_mjpeg mac (at_port ip port) path) (services_of r) /\ In (svc_http mac (at_port ip port)) (services_of r)).
Proof.
  intros (R & _ & E & CK & PR & J & Q & W & F). split.
  - exact (rtsp_reported n r R E CK PR name d pace delay J Q W F).
  - intros LN mac ip port path. exact (http_reported n r R E CK PR name d pace delay J Q W F mac ip port path LN).
Qed.
Lemma camera_told n name d pace delay r mac ip port path : well_scanned n name d pace delay r ->
  forall hash t0 i tb ys zs l now w t w',
    consistent tb -> sane tb -> (forall id s, stored tb id = Some s -> plain s) -> wf_identity i ->
    built_ops (table_part ys) -> sane_ops (table_part ys) -> (forall x s, In (x, s) (adds (table_part ys)) -> plain s) ->
    map snd l = services_of r -> Forall (fun p => sane_time (fst p) /\ (now - 1200 <= fst p)%Z) l ->
    shown_changes hash tb (table_part (ys ++ merged l ++ HTable (TRefresh now) :: zs)) < 2 ^ 32 -> table_part zs = [] ->
    world_run hash (world_new t0 i tb) (ys ++ merged l ++ HTable (TRefresh now) :: zs) = ROk w ->
    running (w_conn w) = true -> registered (w_seen w) = true ->
    (5 * SEC <= t - last_check t0 (w_seen w))%Z -> world_step hash w (HTick t) = ROk w' ->
    (rtsp_camera n name d pace delay mac ip port path ->
       exists id, In (announce (id, svc_rtsp mac (at_port ip port) path)) (believes (w_seen w'))) /\
    (n_lc n [] = [] -> http_camera n name d pace delay mac ip port path ->
       exists id, In (announce (id, svc_mjpeg mac (at_port ip port) path)) (believes (w_seen w'))).
Proof.
  intros WS hash t0 i tb ys zs l now w t w' K Sn Ht Wi B So Ho El Tl Hc Z0 H Rn G L S. destruct (cameras_found _ _ _ _ _ _ WS) as (F1 & F2).
  destruct WS as (R & CP & E & _).
  pose proof (report_told n r R CP E hash t0 i tb ys zs l now w t w' K Sn Ht Wi B So Ho El Tl Hc Z0 H Rn G L S) as T. split.
  - intros C. apply T. exact (proj1 (F1 _ _ _ _ C)).
  - intros LN C. apply T. exact (proj1 (F2 LN _ _ _ _ C)).
Qed.
