(** Discovery: priorities of ports, probing of paths and the report of a scan. *)
From Coq Require Import String NArith List Bool Lia ZArith ZifyBool ZifyNat ZifyN.
From Verif.Model Require Import Bytes Alist Service Control Http Sdp Discovery Text.
From Verif.Spec Require Import DiscoverySpec.
From Verif.Proofs Require Import BytesFacts AlistFacts SdpText DiscMaps TextProofs.
Import ListNotations.
Local Open Scope N_scope.

(** ** Priorities *)
Lemma rank_le : forall ports p, (rank ports p <= length ports)%nat.
Proof. induction ports as [|q r IH]; intros p; cbn [rank length]; [lia|]. specialize (IH p). destruct (p =? q); lia. Qed.
Lemma rank_out : forall ports p, ~ In p ports -> rank ports p = length ports.
Proof.
  induction ports as [|q r IH]; intros p H; cbn [rank length]; [reflexivity|]. cbn [In] in H. rewrite IH by tauto. destruct (N.eqb_spec p q); [|reflexivity]. subst. tauto.
Qed.
Lemma priorities_out : forall ports len idx m p, ~ In p ports -> priority (priorities_from len idx ports m) p = priority m p.
Proof.
  induction ports as [|q r IH]; intros len idx m p H; cbn [priorities_from]; [reflexivity|]. cbn [In] in H. rewrite IH by tauto. unfold priority. rewrite insert_other by (intros ->; tauto). reflexivity.
Qed.
Lemma priorities_in : forall ports len idx m p, NoDup ports -> In p ports -> priority (priorities_from len idx ports m) p = len - (idx + N.of_nat (rank ports p)).
Proof.
  induction ports as [|q r IH]; intros len idx m p ND I; [contradiction|]. cbn [priorities_from rank]. inversion ND; subst. destruct (N.eqb_spec p q) as [E|NE].
  - subst q. rewrite priorities_out by assumption. unfold priority. rewrite insert_same. lia.
  - destruct I as [I|I]; [congruence|]. rewrite IH by assumption. lia.
Qed.
Lemma priority_rank : forall ports p, NoDup ports -> priority (get_port_priorities ports) p = N.of_nat (length ports - rank ports p).
Proof.
  intros ports p ND. unfold get_port_priorities. destruct (in_dec N.eq_dec p ports) as [I|I].
  - rewrite priorities_in by assumption. unfold nlen. pose proof (rank_le ports p). lia.
  - rewrite priorities_out by assumption. rewrite rank_out by assumption. unfold priority. cbn [alookup]. lia.
Qed.
Lemma priority_lt : forall ports p q, NoDup ports -> (priority (get_port_priorities ports) p <? priority (get_port_priorities ports) q) = true <-> (rank ports q < rank ports p)%nat.
Proof. intros ports p q ND. rewrite N.ltb_lt, !priority_rank by assumption. pose proof (rank_le ports p). pose proof (rank_le ports q). lia. Qed.

Section Keep.
  Variable ports : list N.
  Hypothesis ND : NoDup ports.
  Let m := get_port_priorities ports.
  Definition kept (l : list (N * saddr)) (acc : list (ip * (N * N))) : Prop :=
    NoDup (map fst acc) /\
    forall i, match mget ip_eq_dec i acc with
              | Some (mac, p) => chosen ports l (mac, {| sa_ip := i; sa_port := p |})
              | None => forall x, In x l -> sa_ip (snd x) <> i
              end.
  Lemma chosen_other : forall l c d, chosen ports l c -> sa_ip (snd d) <> sa_ip (snd c) -> chosen ports (l ++ [d]) c.
  Proof.
    intros l c d (a & b & -> & A & B) N1. exists a, (b ++ [d]). rewrite <- app_assoc. split; [reflexivity|]. split; [exact A|]. intros x I E. apply in_app_iff in I. destruct I as [I|[<-|[]]]; [now apply B|contradiction].
  Qed.
  Lemma keep_step : forall l acc c, kept l acc -> kept (l ++ [c]) (keep_better m acc c).
  Proof.
    intros l acc [mac [i p]] [K G]. unfold keep_better. cbn [snd fst sa_ip sa_port].
    pose proof (G i) as Gi. destruct (mget ip_eq_dec i acc) as [[mac0 p0]|] eqn:E.
    - destruct (priority m p0 <? priority m p) eqn:L.
      + apply priority_lt in L; [|exact ND]. split; [now apply mset_nodup|]. intros j. rewrite mget_mset. destruct (ip_eq_dec j i) as [->|NJ].
        * destruct Gi as (a & b & -> & A & B). exists (a ++ (mac0, {| sa_ip := i; sa_port := p0 |}) :: b), []. split; [reflexivity|]. split; [|contradiction].
          intros x I Ex. cbn [snd fst sa_ip sa_port] in *. apply in_app_iff in I. destruct I as [I|[<-|I]]; cbn [snd sa_port]; [|exact L|].
          -- specialize (A x I Ex). lia.
          -- specialize (B x I Ex). lia.
        * pose proof (G j) as Gj. destruct (mget ip_eq_dec j acc) as [[mac1 p1]|]; [now apply chosen_other; [|cbn; congruence]|].
          intros x I. apply in_app_iff in I. destruct I as [I|[<-|[]]]; [now apply Gj|cbn; congruence].
      + split; [exact K|]. intros j. destruct (ip_eq_dec j i) as [->|NJ].
        * rewrite E. destruct Gi as (a & b & -> & A & B). exists a, (b ++ [(mac, {| sa_ip := i; sa_port := p |})]). rewrite <- app_assoc. split; [reflexivity|]. split; [exact A|].
          intros x I Ex. apply in_app_iff in I. destruct I as [I|[<-|[]]]; [now apply B|]. cbn [snd sa_port].
          destruct (le_lt_dec (rank ports p0) (rank ports p)) as [X|X]; [exact X|]. apply (priority_lt ports p0 p ND) in X. fold m in X. congruence.
        * pose proof (G j) as Gj. destruct (mget ip_eq_dec j acc) as [[mac1 p1]|]; [now apply chosen_other; [|cbn; congruence]|].
          intros x I. apply in_app_iff in I. destruct I as [I|[<-|[]]]; [now apply Gj|cbn; congruence].
    - split; [now apply mset_nodup|]. intros j. rewrite mget_mset. destruct (ip_eq_dec j i) as [->|NJ].
      + exists l, []. split; [reflexivity|]. split; [|contradiction]. intros x I Ex. cbn [snd sa_ip] in Ex. exfalso. now apply (Gi x I).
      + pose proof (G j) as Gj. destruct (mget ip_eq_dec j acc) as [[mac1 p1]|]; [now apply chosen_other; [|cbn; congruence]|].
        intros x I. apply in_app_iff in I. destruct I as [I|[<-|[]]]; [now apply Gj|cbn; congruence].
  Qed.
  Lemma keep_all : forall r l acc, kept l acc -> kept (l ++ r) (fold_left (keep_better m) r acc).
  Proof.
    induction r as [|c r IH]; intros l acc K; cbn [fold_left]; [now rewrite app_nil_r|]. replace (l ++ c :: r) with ((l ++ [c]) ++ r) by now rewrite <- app_assoc. apply IH. now apply keep_step.
  Qed.
  Lemma chosen_unique : forall l c d, chosen ports l c -> chosen ports l d -> sa_ip (snd c) = sa_ip (snd d) -> c = d.
  Proof.
    intros l c d (a & b & E & A & B) (a' & b' & E' & A' & B') Q. subst l. revert a' A' E' A. induction a as [|x a IH]; intros [|y a'] A' E' A; cbn [app] in E'.
    - congruence.
    - injection E' as -> ->. specialize (A' y (or_introl eq_refl) Q). assert (I : In d (a' ++ d :: b')) by (apply in_or_app; right; now left). specialize (B d I (eq_sym Q)). lia.
    - injection E' as -> <-. specialize (A d (or_introl eq_refl) (eq_sym Q)). assert (I : In c (a ++ c :: b)) by (apply in_or_app; right; now left). specialize (B' c I Q). lia.
    - injection E' as -> E'. apply (IH a'); [intros z I; apply A'; now right|exact E'|intros z I; apply A; now right].
  Qed.
  Lemma filter_kept : forall l, kept l (fold_left (keep_better m) l []).
  Proof. intros l. apply (keep_all l [] []). split; [constructor|]. intros i. cbn [mget]. intros x []. Qed.
  Lemma filter_iff : forall l c, In c (filter_duplicit l m) <-> chosen ports l c.
  Proof.
    intros l c. destruct (filter_kept l) as [K G]. unfold filter_duplicit. split.
    - intros I. apply in_map_iff in I. destruct I as ([i [mac p]] & <- & I). cbn [fst snd]. apply (in_mget ip_eq_dec) in I; [|exact K]. specialize (G i). rewrite I in G. exact G.
    - intros C. specialize (G (sa_ip (snd c))). destruct (mget ip_eq_dec (sa_ip (snd c)) (fold_left (keep_better m) l [])) as [[mac p]|] eqn:E.
      + assert (X : c = (mac, {| sa_ip := sa_ip (snd c); sa_port := p |})) by (apply (chosen_unique l); auto). apply mget_in in E. apply in_map_iff. eexists. split; [|exact E]. now rewrite X at 3.
      + destruct C as (a & b & -> & _). exfalso. apply (G c); [apply in_or_app; right; now left|reflexivity].
  Qed.
  Lemma filter_one : forall l, NoDup (map (fun c => sa_ip (snd c)) (filter_duplicit l m)).
  Proof. intros l. unfold filter_duplicit. rewrite map_map. cbn [snd sa_ip]. apply (filter_kept l). Qed.
  Lemma filter_best : forall l x, In x l -> exists c, In c (filter_duplicit l m) /\ In c l /\ sa_ip (snd c) = sa_ip (snd x) /\ (rank ports (sa_port (snd c)) <= rank ports (sa_port (snd x)))%nat.
  Proof.
    intros l x I. destruct (filter_kept l) as [K G]. specialize (G (sa_ip (snd x))). destruct (mget ip_eq_dec (sa_ip (snd x)) (fold_left (keep_better m) l [])) as [[mac p]|] eqn:E.
    - exists (mac, {| sa_ip := sa_ip (snd x); sa_port := p |}). split; [now apply filter_iff|]. destruct G as (a & b & -> & A & B). split; [apply in_or_app; right; now left|]. split; [reflexivity|].
      apply in_app_iff in I. destruct I as [I|[<-|I]]; [|cbn; lia|].
      + specialize (A x I eq_refl). lia.
      + exact (B x I eq_refl).
    - exfalso. now apply (G x I).
  Qed.
End Keep.

(** ** Paths *)
Section Paths.
  Variable ovf : bool.
  Variables lossy lc uc : bytes -> bytes.
  Variable describe : saddr -> bytes -> option (rheader * bytes).
  Variable get_header : saddr -> bytes -> option rheader.
  Variables (mac : N) (a : saddr).
  Let typ := get_rtsp_stream_type ovf lossy lc uc describe a.
  Let loop := rtsp_loop ovf lossy lc uc describe mac a.
  Let idle := idle ovf lossy lc uc describe a.
  Let settled := settled ovf lossy lc uc describe mac a.
  Lemma loop_idle : forall pre rest res, (forall q, In q pre -> idle q) -> exists v, loop (pre ++ rest) res = loop rest v /\ settled pre res v.
  Proof.
    induction pre as [|q pre IH]; intros rest res H; [exists res; split; [reflexivity|right; split; [intros q []|reflexivity]]|].
    assert (Hq : idle q) by (apply H; now left). assert (Hp : forall x, In x pre -> idle x) by (intros x I; apply H; now right).
    cbn [app]. unfold loop. cbn [rtsp_loop]. unfold get_rtsp_stream. destruct Hq as (t & Et & ND). unfold typ in Et. rewrite Et.
    assert (U : forall r, loop (pre ++ rest) r = loop (pre ++ rest) r) by reflexivity.
    destruct t; try (exfalso; apply ND; unfold decisive; auto; fail).
    all: try (destruct (IH rest res Hp) as (v & E & [(p1 & p & p2 & E1 & T & L & V)|[L V]]); exists v; (split; [exact E|]);
      [left; exists (q :: p1), p, p2; rewrite E1; split; [reflexivity|auto] | right; split; [|exact V]; intros x [<-|I]; [unfold typ; rewrite Et; discriminate|now apply L]]; fail).
    destruct (IH rest (svc_unsupported_rtsp mac a q) Hp) as (v & E & [(p1 & p & p2 & E1 & T & L & V)|[L V]]); exists v; (split; [exact E|]).
    - left. exists (q :: p1), p, p2. rewrite E1. split; [reflexivity|auto].
    - left. exists [], q, pre. split; [reflexivity|]. split; [exact Et|]. split; [exact L|exact V].
  Qed.
  Lemma probe_first : forall pre p post t, (forall q, In q pre -> idle q) -> typ p = ROk t -> decisive t ->
    find_rtsp_stream ovf lossy lc uc describe (pre ++ p :: post) mac a = ROk (stream_at mac a p t).
  Proof.
    intros pre p post t H T D. unfold find_rtsp_stream. fold loop. destruct (loop_idle pre (p :: post) (svc_unknown_rtsp mac a) H) as (v & -> & _).
    unfold loop. cbn [rtsp_loop]. unfold get_rtsp_stream. unfold typ in T. rewrite T. destruct D as [-> | ->]; reflexivity.
  Qed.
  Lemma probe_none : forall paths, (forall q, In q paths -> idle q) -> exists v, find_rtsp_stream ovf lossy lc uc describe paths mac a = ROk v /\ settled paths (svc_unknown_rtsp mac a) v.
  Proof.
    intros paths H. destruct (loop_idle paths [] (svc_unknown_rtsp mac a) H) as (v & E & S). rewrite app_nil_r in E. exists v. split; [|exact S]. unfold find_rtsp_stream. fold loop. rewrite E. reflexivity.
  Qed.
  Definition mjpeg_at := get_mjpeg_stream lc get_header mac a.
  Lemma mjpeg_first : forall paths v, find_mjpeg_path lc get_header paths mac a = Some v <->
    exists pre p post, paths = pre ++ p :: post /\ (forall q, In q pre -> mjpeg_at q = None) /\ mjpeg_at p = Some v.
  Proof.
    intros paths v. induction paths as [|q r IH]; cbn [find_mjpeg_path].
    - split; [discriminate|]. intros ([|x pre] & p & post & E & _); discriminate.
    - fold mjpeg_at. destruct (mjpeg_at q) as [w|] eqn:E.
      + split; [intros [= ->]; exists [], q, r; split; [reflexivity|]; split; [intros x []|exact E]|].
        intros ([|x pre] & p & post & E1 & H & P); injection E1 as -> ->; [congruence|]. rewrite H in E by now left. discriminate.
      + rewrite IH. split.
        * intros (pre & p & post & -> & H & P). exists (q :: pre), p, post. split; [reflexivity|]. split; [|exact P]. intros x [<-|I]; [exact E|now apply H].
        * intros ([|x pre] & p & post & E1 & H & P); injection E1 as -> ->; [congruence|]. exists pre, p, post. split; [reflexivity|]. split; [|exact P]. intros y I. apply H. now right.
  Qed.
  Lemma mjpeg_none : forall paths, find_mjpeg_path lc get_header paths mac a = None <-> forall q, In q paths -> mjpeg_at q = None.
  Proof.
    induction paths as [|q r IH]; cbn [find_mjpeg_path]; [split; [intros _ q []|reflexivity]|]. fold mjpeg_at. destruct (mjpeg_at q) as [w|] eqn:E.
    - split; [discriminate|]. intros H. rewrite (H q (or_introl eq_refl)) in E. discriminate.
    - rewrite IH. split; [intros H x [<-|I]; [exact E|now apply H]|]. intros H x I. apply H. now right.
  Qed.
End Paths.

Lemma type_total : forall lossy lc uc describe a q, exists t, get_rtsp_stream_type false lossy lc uc describe a q = ROk t.
Proof.
  intros lossy lc uc describe a q. unfold get_rtsp_stream_type. destruct (describe a q) as [[h body]|]; [|eauto]. destruct (_ && _ && _); [eauto|].
  unfold rtsp_stream_type. destruct (supported_iff lossy lc uc body) as (b & -> & _). destruct (rh_code h =? 200); [eauto|]. destruct (rh_code h =? 401); [eauto|]. destruct (rh_code h =? 404); eauto.
Qed.
Lemma decisive_dec : forall t, {decisive t} + {~ decisive t}.
Proof. unfold decisive. destruct t; (left; auto; fail) || (right; intros [X|X]; discriminate). Qed.
(** Either a first decisive path or none *)
Lemma paths_cases : forall lossy lc uc describe a paths,
  (forall q, In q paths -> idle false lossy lc uc describe a q) \/
  exists pre p post t, paths = pre ++ p :: post /\ (forall q, In q pre -> idle false lossy lc uc describe a q) /\ get_rtsp_stream_type false lossy lc uc describe a p = ROk t /\ decisive t.
Proof.
  intros lossy lc uc describe a. induction paths as [|q r IH]; [left; intros q []|]. destruct (type_total lossy lc uc describe a q) as (t & T). destruct (decisive_dec t) as [D|D].
  - right. exists [], q, r, t. split; [reflexivity|]. split; [intros x []|auto].
  - assert (Q : idle false lossy lc uc describe a q) by (exists t; auto). destruct IH as [H|(pre & p & post & t' & -> & H & T' & D')].
    + left. intros x [<-|I]; auto.
    + right. exists (q :: pre), p, post, t'. split; [reflexivity|]. split; [intros x [<-|I]; auto|auto].
Qed.
Lemma probe_total : forall lossy lc uc describe paths mac a, exists v, find_rtsp_stream false lossy lc uc describe paths mac a = ROk v /\ s_mac v = Some mac /\ s_addr v = Some a
  /\ In (s_type v) [RTSP; LockedRTSP; UnsupportedRTSP; UnknownRTSP].
Proof.
  intros lossy lc uc describe paths mac a. destruct (paths_cases lossy lc uc describe a paths) as [H|(pre & p & post & t & -> & H & T & D)].
  - destruct (probe_none false lossy lc uc describe mac a paths H) as (v & E & [(p1 & p & p2 & _ & _ & _ & ->)|[_ ->]]); eexists; (split; [exact E|]); cbn; auto 12.
  - rewrite (probe_first false lossy lc uc describe mac a pre p post t H T D). eexists. split; [reflexivity|]. destruct D as [-> | ->]; cbn; auto 12.
Qed.
(** When a path is playable and when it is locked *)
Lemma type_cases : forall lossy lc uc describe a q,
  (get_rtsp_stream_type false lossy lc uc describe a q = ROk SSupported <->
     exists h body, describe a q = Some (h, body) /\ ~ ignored lc h q /\ rh_code h = 200 /\ is_supported_rtsp false lossy lc uc body = ROk true) /\
  (get_rtsp_stream_type false lossy lc uc describe a q = ROk SUnsupported <->
     exists h body, describe a q = Some (h, body) /\ ~ ignored lc h q /\ rh_code h = 200 /\ is_supported_rtsp false lossy lc uc body = ROk false) /\
  (get_rtsp_stream_type false lossy lc uc describe a q = ROk SLocked <-> exists h body, describe a q = Some (h, body) /\ ~ ignored lc h q /\ rh_code h = 401).
Proof.
  intros lossy lc uc describe a q. unfold get_rtsp_stream_type. destruct (describe a q) as [[h body]|].
  2: { split; [|split]; (split; [discriminate|]); [intros (h & b & X & _)|intros (h & b & X & _)|intros (h & b & X & _)]; discriminate. }
  assert (IG : is_hipcam lc h && negb (beq q (lit "/11")) && negb (beq q (lit "/12")) = true <-> ignored lc h q).
  { unfold ignored. rewrite !andb_true_iff, !negb_true_iff, <- !not_true_iff_false, !beq_spec.
    assert (is_hipcam lc h = true <-> exists f, last_field lc (lit "server") h = Some f /\
              (hf_value f = Some (lit "HiIpcam/V100R003 VodServer/1.0.0") \/ hf_value f = Some (lit "Hipcam RealServer/V1.0"))) as ->.
    { unfold is_hipcam, server_value. destruct (last_field lc (lit "server") h) as [f|]; [|split; [discriminate|intros (f & Q & _); discriminate]].
      destruct (hf_value f) as [v|] eqn:V; [|split; [discriminate|intros (f' & Q & W); injection Q as <-; rewrite V in W; destruct W; discriminate]].
      rewrite orb_true_iff, !beq_spec. split.
      - intros W. exists f. split; [reflexivity|]. rewrite V. destruct W as [-> | ->]; [left|right]; reflexivity.
      - intros (f' & Q & W). injection Q as <-. rewrite V in W. destruct W as [W|W]; injection W as ->; [left|right]; reflexivity. }
    tauto. }
  destruct (is_hipcam lc h && negb (beq q (lit "/11")) && negb (beq q (lit "/12"))).
  - assert (I : ignored lc h q) by tauto.
    split; [|split]; (split; [discriminate|]); [intros (h' & b & [= <- <-] & N1 & _)|intros (h' & b & [= <- <-] & N1 & _)|intros (h' & b & [= <- <-] & N1 & _)]; contradiction.
  - assert (I : ~ ignored lc h q) by (rewrite <- IG; discriminate). unfold rtsp_stream_type. destruct (supported_iff lossy lc uc body) as (b & S & _). rewrite S.
    destruct (N.eqb_spec (rh_code h) 200) as [E|N2]; [|destruct (N.eqb_spec (rh_code h) 401) as [E|N4]; [|destruct (rh_code h =? 404)]].
    + destruct b; (split; [|split]); (split; [first [discriminate | intros _; exists h, body; repeat split; assumption]|]);
        first [intros _; reflexivity | intros (h' & b' & [= <- <-] & _ & C & X); first [rewrite S in X; discriminate | reflexivity] | intros (h' & b' & [= <- <-] & _ & C); rewrite E in C; discriminate].
    + split; [|split].
      * split; [discriminate|]. intros (h' & b' & [= <- <-] & _ & C & _). contradiction.
      * split; [discriminate|]. intros (h' & b' & [= <- <-] & _ & C & _). contradiction.
      * split; [intros _; exists h, body; auto|reflexivity].
    + split; [|split]; (split; [discriminate|]); [intros (h' & b' & [= <- <-] & _ & C & _)|intros (h' & b' & [= <- <-] & _ & C & _)|intros (h' & b' & [= <- <-] & _ & C)]; contradiction.
    + split; [|split]; (split; [discriminate|]); [intros (h' & b' & [= <- <-] & _ & C & _)|intros (h' & b' & [= <- <-] & _ & C & _)|intros (h' & b' & [= <- <-] & _ & C)]; contradiction.
Qed.

(** ** MJPEG streams *)
Lemma supported_mjpeg lc h : lc [] = [] -> (is_supported_mjpeg lc h = true <-> says_mjpeg lc h).
Proof.
  intros L. unfold is_supported_mjpeg, says_mjpeg, mjpeg_type.
  assert (S : forall v, starts_with (lit "multipart/x-mixed-replace") v || starts_with (lit "image/jpeg") v || starts_with (lit "image/jpg") v = true <->
    exists t rest, In t [lit "multipart/x-mixed-replace"; lit "image/jpeg"; lit "image/jpg"] /\ v = t ++ rest).
  { intros v. rewrite !orb_true_iff, !starts_with_iff. split.
    - intros [[[r ->]|[r ->]]|[r ->]]; eexists _, r; (split; [|reflexivity]); cbn [In]; auto.
    - intros (t & r & [<-|[<-|[<-|[]]]] & ->); eauto. }
  cbv zeta. rewrite S. clear S. destruct (last_field lc (lit "content-type") h) as [f|].
  - destruct (hf_value f) as [v|] eqn:V.
    + split; [intros H; exists f, v; auto|]. intros (f' & v' & E & V' & H). injection E as <-. rewrite V in V'. injection V' as <-. exact H.
    + split; [|intros (f' & v' & E & V' & H); injection E as <-; congruence]. rewrite L. intros (t & r & I & E). exfalso.
      destruct I as [<-|[<-|[<-|[]]]]; discriminate.
  - split; [|intros (f' & v' & E & _); discriminate]. rewrite L. intros (t & r & I & E). exfalso. destruct I as [<-|[<-|[<-|[]]]]; discriminate.
Qed.
Lemma mjpeg_types lc get_header mac a q v : lc [] = [] ->
  (get_mjpeg_stream lc get_header mac a q = Some v <->
   exists h, get_header a q = Some h /\ ((rh_code h = 200 /\ says_mjpeg lc h /\ v = svc_mjpeg mac a q) \/ (rh_code h = 401 /\ v = svc_locked_mjpeg mac a None))).
Proof.
  intros L. unfold get_mjpeg_stream, mjpeg_stream_type. destruct (get_header a q) as [h|]; [|split; [discriminate|intros (h & E & _); discriminate]].
  pose proof (supported_mjpeg lc h L) as S.
  destruct (N.eqb_spec (rh_code h) 200) as [C|C].
  - destruct (is_supported_mjpeg lc h).
    + split; [intros E; injection E as <-; exists h; split; [reflexivity|]; left; tauto|]. intros (h' & E & [(_ & _ & ->)|(C' & _)]); injection E as <-; [reflexivity|congruence].
    + split; [discriminate|]. intros (h' & E & [(_ & X & _)|(C' & _)]); injection E as <-; [apply S in X; discriminate|congruence].
  - destruct (N.eqb_spec (rh_code h) 401) as [C'|C'].
    + split; [intros E; injection E as <-; exists h; auto|]. intros (h' & E & [(X & _)|(_ & ->)]); injection E as <-; [congruence|reflexivity].
    + split; [destruct (rh_code h =? 404); discriminate|]. intros (h' & E & [(X & _)|(X & _)]); injection E as <-; congruence.
Qed.
