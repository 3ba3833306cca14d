(** The URL parser splits a URL into its components. *)
From Coq Require Import NArith List Bool Lia.
From Coq Require Import ZArith ZifyBool ZifyNat ZifyN.
From Verif.Model Require Import Bytes Text Utf8 Url.
From Verif.Spec Require Import UrlSpec.
From Verif.Proofs Require Import TextProofs.
Import ListNotations.
Local Open Scope N_scope.

Lemma bound_before s a c b : utf8_valid s = true -> s = a ++ c :: b -> c <= 127 -> boundary s (length a) = true.
Proof. intros Hv -> Hc. now apply boundary_at. Qed.
Lemma bound_after s a c b : utf8_valid s = true -> s = a ++ c :: b -> c <= 127 -> boundary s (length a + 1) = true.
Proof. intros Hv -> Hc. now apply boundary_at. Qed.

(** A boundary is described by what is next to it. *)
Definition cut (s a b : bytes) : Prop :=
  s = a ++ b /\ (a = [] \/ b = [] \/ (exists c b', b = c :: b' /\ c <= 127) \/ (exists a' c, a = a' ++ [c] /\ c <= 127)).
Lemma cut_boundary s a b i : utf8_valid s = true -> cut s a b -> i = length a -> boundary s i = true.
Proof.
  intros Hv (E & H) ->. destruct H as [->|[->|[(c & b' & -> & Hc)|(a' & c & -> & Hc)]]].
  - apply boundary_0.
  - rewrite app_nil_r in E. subst. apply boundary_end.
  - eapply bound_before; eauto.
  - rewrite app_length. cbn [length]. eapply (bound_after s a' c b); eauto. rewrite E, <- app_assoc. reflexivity.
Qed.

Lemma slice_cut s i j a m b : utf8_valid s = true -> cut s a (m ++ b) -> cut s (a ++ m) b ->
  i = length a -> j = (length a + length m)%nat -> slice s i j = ROk m.
Proof.
  intros Hv H1 H2 Hi Hj. apply (slice_mid' s i j a m b); auto.
  - apply H1.
  - exact (cut_boundary s a (m ++ b) i Hv H1 Hi).
  - refine (cut_boundary s (a ++ m) b j Hv H2 _). rewrite app_length. auto.
Qed.

Lemma cut_start s b : s = b -> cut s [] b.
Proof. intros ->. split; [reflexivity|auto]. Qed.
Lemma cut_stop s a : s = a -> cut s a [].
Proof. intros ->. split; [now rewrite app_nil_r|auto]. Qed.
Lemma cut_pre s a c b : s = a ++ c :: b -> c <= 127 -> cut s a (c :: b).
Proof. intros -> H. split; [reflexivity|]. right. right. left. eauto. Qed.
Lemma cut_post s a c b : s = (a ++ [c]) ++ b -> c <= 127 -> cut s (a ++ [c]) b.
Proof. intros -> H. split; [reflexivity|]. right. right. right. eauto. Qed.

(** Where the user information is and what it contains. *)
Definition user_pos (start : nat) (p : option (bytes * option bytes)) : option nat * option nat :=
  match p with
  | None => (None, None)
  | Some (u, None) => (Some start, None)
  | Some (u, Some w) => (Some start, Some (start + length u + 1)%nat)
  end.

Ltac app := repeat (rewrite <- ?app_assoc; cbn [app]).
Ltac len := repeat (rewrite ?app_length; cbn [length]); lia.

Definition ascii_end (pre : bytes) : Prop := exists a c, pre = a ++ [c] /\ c <= 127.
Lemma cut_at_start s pre b : ascii_end pre -> s = pre ++ b -> cut s pre b.
Proof. intros (a & c & -> & Hc) E. now apply cut_post. Qed.
Lemma cut_at_netloc s pre p b : ascii_end pre -> s = (pre ++ user_text p) ++ b -> cut s (pre ++ user_text p) b.
Proof.
  intros Hpre E. unfold user_text in *. destruct (up_user p) as [[u [w|]]|].
  - replace (pre ++ u ++ [58] ++ w ++ [64]) with ((pre ++ u ++ [58] ++ w) ++ [64]) in * by (app; reflexivity).
    apply cut_post; [exact E|lia].
  - replace (pre ++ u ++ [64]) with ((pre ++ u) ++ [64]) in * by (app; reflexivity). apply cut_post; [exact E|lia].
  - rewrite app_nil_r in *. now apply cut_at_start.
Qed.

(** The shape of the port, whether its text is a number or not. *)
Definition port_shape (p : url_parts) : Prop :=
  match up_port p with
  | None => ends_with [93] (up_host p) = true \/ ~ In 58 (up_host p)
  | Some (t, n) => ends_with [93] (58 :: t) = false /\ ~ In 58 t
  end.
Definition parsed_port (p : url_parts) : option (option N) :=
  match up_port p with
  | None => Some None
  | Some (t, _) => option_map Some (parse_uint 10 65535 t)
  end.

Section Authority.
Variables (s pre post : bytes) (p : url_parts).
Hypothesis Hv : utf8_valid s = true.
Hypothesis Es : s = pre ++ user_text p ++ up_host p ++ port_text p ++ post.
Hypothesis Hpre : ascii_end pre.
Hypothesis Hpost : post = [] \/ exists c r, post = c :: r /\ c <= 127.
Hypothesis Huser : match up_user p with Some (u, _) => ~ In 58 u | None => True end.
Hypothesis Hhost : ~ In 64 (up_host p ++ port_text p).

Let start := length pre.
Let netloc := (start + length (user_text p))%nat.
Let stop := (netloc + length (up_host p ++ port_text p))%nat.

Lemma cut_at_stop a : s = a ++ post -> cut s a post.
Proof.
  intros E. destruct Hpost as [Hp|(c & r & Hp & Hc)]; rewrite Hp in *.
  - apply cut_stop. now rewrite app_nil_r in E.
  - now apply cut_pre.
Qed.
Lemma auth_slice : slice s start stop = ROk (user_text p ++ up_host p ++ port_text p).
Proof.
  apply (slice_cut s _ _ pre (user_text p ++ up_host p ++ port_text p) post); auto.
  - apply cut_at_start; [exact Hpre|]. rewrite Es. app. reflexivity.
  - apply cut_at_stop. rewrite Es. app. reflexivity.
  - unfold stop, netloc, start. len.
Qed.
Lemma netloc_slice : slice s netloc stop = ROk (up_host p ++ port_text p).
Proof.
  apply (slice_cut s _ _ (pre ++ user_text p) (up_host p ++ port_text p) post); auto.
  - apply cut_at_netloc; [exact Hpre|]. rewrite Es. app. reflexivity.
  - apply cut_at_stop. rewrite Es. app. reflexivity.
  - unfold netloc, start. len.
  - unfold stop, netloc, start. len.
Qed.

Lemma user_step :
  match rfind_char 64 (user_text p ++ up_host p ++ port_text p) with
  | Some d => rbind (process_user_info s start (start + d)) (fun up => ROk (up, (start + d + 1)%nat))
  | None => ROk ((None, None), start)
  end = ROk (user_pos start (up_user p), netloc).
Proof.
  pose proof Es as E'. unfold netloc, user_text, user_pos in *. destruct (up_user p) as [[u [w|]]|].
  - replace ((u ++ [58] ++ w ++ [64]) ++ up_host p ++ port_text p) with ((u ++ 58 :: w) ++ 64 :: up_host p ++ port_text p)
      by (app; reflexivity).
    rewrite rfind_char_app by exact Hhost. unfold process_user_info.
    rewrite (slice_cut s start (start + length (u ++ 58 :: w)) pre (u ++ 58 :: w) (64 :: up_host p ++ port_text p ++ post)); auto.
    + cbn [rbind]. rewrite find_char_app by exact Huser. cbn [option_map]. do 2 f_equal. unfold start. len.
    + apply cut_at_start; [exact Hpre|]. rewrite E'. app. reflexivity.
    + apply cut_pre; [|lia]. rewrite E'. app. reflexivity.
  - replace ((u ++ [64]) ++ up_host p ++ port_text p) with (u ++ 64 :: up_host p ++ port_text p) by (app; reflexivity).
    rewrite rfind_char_app by exact Hhost. unfold process_user_info.
    rewrite (slice_cut s start (start + length u) pre u (64 :: up_host p ++ port_text p ++ post)); auto.
    + cbn [rbind]. apply find_char_none in Huser. rewrite Huser. cbn [option_map]. do 2 f_equal. unfold start. len.
    + apply cut_at_start; [exact Hpre|]. rewrite E'. app. reflexivity.
    + apply cut_pre; [|lia]. rewrite E'. app. reflexivity.
  - cbn [app]. apply rfind_char_none in Hhost. rewrite Hhost. do 2 f_equal. cbn. lia.
Qed.

Lemma authority_ok :
  port_shape p ->
  process_authority s start stop =
    match parsed_port p with
    | Some port => ROk (fst (user_pos start (up_user p)), snd (user_pos start (up_user p)), netloc,
         match up_port p with None => None | Some _ => Some (netloc + length (up_host p) + 1)%nat end, port)
    | None => RErr
    end.
Proof.
  intros Hport. unfold process_authority. rewrite auth_slice. cbn [rbind]. rewrite user_step. cbn [rbind].
  destruct (user_pos start (up_user p)) as [user pass]. rewrite netloc_slice. cbn [rbind fst snd].
  pose proof Es as E'. unfold port_text, port_shape, parsed_port in *. destruct (up_port p) as [[t n]|].
  - destruct Hport as (H1 & H2). rewrite ends_with_tail, H1, rfind_char_app by exact H2.
    assert (Hb : boundary (up_host p ++ 58 :: t) (length (up_host p) + 1) = true).
    { unfold boundary. rewrite nth_error_app2 by lia.
      replace (length (up_host p) + 1 - length (up_host p))%nat with 1%nat by lia. cbn [nth_error].
      destruct t as [|x t]; cbn [nth_error].
      - rewrite app_length. cbn [length]. rewrite PeanoNat.Nat.eqb_refl. apply orb_true_r.
      - rewrite E' in Hv.
        replace (pre ++ user_text p ++ up_host p ++ (58 :: x :: t) ++ post)
          with ((pre ++ user_text p ++ up_host p) ++ 58 :: x :: t ++ post) in Hv by (app; reflexivity).
        apply valid_after in Hv as [Hv1 _]; [|lia]. apply valid_first in Hv1. lia. }
    rewrite (slice_mid' (up_host p ++ 58 :: t) (length (up_host p) + 1) (length (up_host p ++ 58 :: t)) (up_host p ++ [58]) t []).
    + cbn [rbind]. destruct (parse_uint 10 65535 t); cbn [option_map]; [|reflexivity]. do 2 f_equal. f_equal. f_equal. lia.
    + app. now rewrite app_nil_r.
    + len.
    + len.
    + exact Hb.
    + apply boundary_end.
  - rewrite app_nil_r. destruct Hport as [H|H]; [rewrite H; reflexivity|].
    destruct (ends_with [93] (up_host p)); [reflexivity|]. apply rfind_char_none in H. rewrite H. reflexivity.
Qed.
End Authority.

Definition tail_shape (t : option (bytes * option bytes * option bytes)) : Prop :=
  match t with
  | None => True
  | Some (path, q, f) =>
      (exists r, path = 47 :: r) /\
      match f with Some t => ~ In 35 t | None => ~ In 35 (path ++ opt_text 63 q) end /\
      match q with Some t => ~ In 63 t | None => ~ In 63 path end
  end.

Lemma path_ok s pre path q f :
  utf8_valid s = true -> s = pre ++ path ++ opt_text 63 q ++ opt_text 35 f -> tail_shape (Some (path, q, f)) ->
  process_path s (length pre) =
    ROk (option_map (fun _ => (length pre + length (path ++ opt_text 63 q) + 1)%nat) f,
         option_map (fun _ => (length pre + length path + 1)%nat) q).
Proof.
  intros Hv E ((r & Hr) & Hf & Hq). unfold process_path.
  assert (Hc : forall b, s = pre ++ path ++ b -> cut s pre (path ++ b)).
  { intros b Eb. rewrite Hr in *. apply cut_pre; [exact Eb|lia]. }
  rewrite (slice_cut s (length pre) (length s) pre (path ++ opt_text 63 q ++ opt_text 35 f) []); auto.
  2: { rewrite app_nil_r. now apply Hc. }
  2: { apply cut_stop. exact E. }
  2: { rewrite E. len. }
  cbn [rbind].
  assert (H1 : rfind_char 35 (path ++ opt_text 63 q ++ opt_text 35 f) = option_map (fun _ => length (path ++ opt_text 63 q)) f).
  { destruct f as [t|]; cbn [opt_text option_map].
    - rewrite app_assoc. now apply rfind_char_app.
    - rewrite app_nil_r. now apply rfind_char_none. }
  rewrite H1.
  assert (H2 : slice s (length pre)
     match option_map (fun d => (length pre + d + 1)%nat) (option_map (fun _ => length (path ++ opt_text 63 q)) f) with
     | Some f => (f - 1)%nat | None => length s end = ROk (path ++ opt_text 63 q)).
  { apply (slice_cut s _ _ pre (path ++ opt_text 63 q) (opt_text 35 f)); auto.
    - app. now apply Hc.
    - destruct f as [t|]; cbn [opt_text] in *.
      + apply cut_pre; [|lia]. rewrite E. app. reflexivity.
      + apply cut_stop. rewrite E. app. now rewrite app_nil_r.
    - destruct f; cbn [option_map]; [lia|]. rewrite E. cbn [opt_text]. len. }
  rewrite H2. cbn [rbind]. f_equal. f_equal.
  - now destruct f.
  - destruct q as [t|]; cbn [opt_text option_map].
    + now rewrite rfind_char_app.
    + rewrite app_nil_r. apply rfind_char_none in Hq. now rewrite Hq.
Qed.

Record url_shape (p : url_parts) : Prop := {
  us_scheme : ~ In 58 (up_scheme p);
  us_authority : ~ In 47 (user_text p ++ up_host p ++ port_text p);
  us_user : match up_user p with Some (u, _) => ~ In 58 u | None => True end;
  us_host : ~ In 64 (up_host p ++ port_text p);
  us_port : port_shape p;
  us_tail : tail_shape (up_tail p)
}.

Definition url_of (p : url_parts) (port : option N) : url :=
  let hier := (length (up_scheme p) + 1)%nat in
  let start := (hier + 2)%nat in
  let netloc := (start + length (user_text p))%nat in
  let path := (netloc + length (up_host p ++ port_text p))%nat in
  {| u_text := assemble p; u_hier := hier; u_netloc := netloc; u_user := fst (user_pos start (up_user p));
     u_pass := snd (user_pos start (up_user p));
     u_portpos := match up_port p with None => None | Some _ => Some (netloc + length (up_host p) + 1)%nat end;
     u_port := port;
     u_path := option_map (fun _ => path) (up_tail p);
     u_query := match up_tail p with Some (pa, Some _, _) => Some (path + length pa + 1)%nat | _ => None end;
     u_fragment := match up_tail p with Some (pa, q, Some _) => Some (path + length (pa ++ opt_text 63 q) + 1)%nat | _ => None end |}.

Lemma scheme_slice p : utf8_valid (assemble p) = true -> ~ In 58 (up_scheme p) ->
  slice (assemble p) (length (up_scheme p) + 1) (length (assemble p)) =
    ROk (47 :: 47 :: user_text p ++ up_host p ++ port_text p ++ tail_text p).
Proof.
  intros Hv Hs. apply (slice_cut _ _ _ (up_scheme p ++ [58]) (47 :: 47 :: user_text p ++ up_host p ++ port_text p ++ tail_text p) []); auto.
  - apply cut_post; [|lia]. unfold assemble. app. now rewrite app_nil_r.
  - apply cut_stop. unfold assemble. app. reflexivity.
  - len.
  - unfold assemble. len.
Qed.

Lemma tail_start p : tail_shape (up_tail p) -> tail_text p = [] \/ exists c r, tail_text p = c :: r /\ c <= 127.
Proof.
  unfold tail_text, tail_shape. destruct (up_tail p) as [[[path q] f]|]; [|auto]. intros ((r & ->) & _). right. cbn [app]. do 2 eexists. split; [reflexivity|lia].
Qed.

Lemma url_parse_shape p : utf8_valid (assemble p) = true -> url_shape p ->
  url_parse (assemble p) = match parsed_port p with Some port => ROk (url_of p port) | None => RErr end.
Proof.
  intros Hv [H1 H2 H3 H4 H5 H6]. unfold url_parse.
  replace (find_char 58 (assemble p)) with (Some (length (up_scheme p))) by (unfold assemble; cbn [app]; now rewrite find_char_app).
  cbv zeta. rewrite (scheme_slice p Hv H1). cbn [rbind].
  replace (starts_with [47; 47] (47 :: 47 :: user_text p ++ up_host p ++ port_text p ++ tail_text p)) with true by reflexivity.
  assert (Hs : slice (assemble p) (length (up_scheme p) + 1 + 2) (length (assemble p)) =
               ROk (user_text p ++ up_host p ++ port_text p ++ tail_text p)).
  { apply (slice_cut _ _ _ ((up_scheme p ++ [58; 47]) ++ [47]) (user_text p ++ up_host p ++ port_text p ++ tail_text p) []); auto.
    - apply cut_post; [|lia]. unfold assemble. app. now rewrite app_nil_r.
    - apply cut_stop. unfold assemble. app. reflexivity.
    - len.
    - unfold assemble. len. }
  rewrite Hs. cbn [rbind].
  pose proof (authority_ok (assemble p) ((up_scheme p ++ [58; 47]) ++ [47]) (tail_text p) p Hv) as Ha.
  replace (length ((up_scheme p ++ [58; 47]) ++ [47])) with (length (up_scheme p) + 1 + 2)%nat in Ha by len.
  assert (Ha' := fun A => Ha A (ex_intro _ _ (ex_intro _ _ (conj eq_refl (ltac:(lia) : 47 <= 127)))) (tail_start p H6) H3 H4 H5).
  clear Ha. assert (Ha := Ha' (ltac:(unfold assemble; app; reflexivity))). clear Ha'.
  pose proof H6 as H6'. pose proof Hv as Hv'.
  unfold url_of. unfold tail_text at 1. unfold tail_shape in H6. destruct (up_tail p) as [[[path q] f]|] eqn:Et.
  - destruct H6 as ((r & Hr) & Hf & Hq).
    replace (find_char 47 (user_text p ++ up_host p ++ port_text p ++ path ++ opt_text 63 q ++ opt_text 35 f))
      with (Some (length (user_text p ++ up_host p ++ port_text p))).
    2: { symmetry. replace (user_text p ++ up_host p ++ port_text p ++ path ++ opt_text 63 q ++ opt_text 35 f)
         with ((user_text p ++ up_host p ++ port_text p) ++ 47 :: (r ++ opt_text 63 q ++ opt_text 35 f)) by (rewrite Hr; app; reflexivity).
         now apply find_char_app. }
    replace (length (up_scheme p) + 1 + 2 + length (user_text p ++ up_host p ++ port_text p))%nat
      with (length (up_scheme p) + 1 + 2 + length (user_text p) + length (up_host p ++ port_text p))%nat by len.
    rewrite Ha. destruct (parsed_port p) as [port|]; [|reflexivity]. cbn [rbind].
    pose proof (path_ok (assemble p) (up_scheme p ++ [58; 47; 47] ++ user_text p ++ up_host p ++ port_text p) path q f Hv) as Hp.
    assert (Hp' := Hp (ltac:(unfold assemble, tail_text; rewrite Et; app; reflexivity)) H6'). clear Hp.
    replace (length (up_scheme p ++ [58; 47; 47] ++ user_text p ++ up_host p ++ port_text p))
      with (length (up_scheme p) + 1 + 2 + length (user_text p) + length (up_host p ++ port_text p))%nat in Hp' by len.
    rewrite Hp'. cbn [rbind option_map]. destruct q, f; reflexivity.
  - cbn [app]. rewrite app_nil_r. pose proof H2 as H2'. apply find_char_none in H2'. rewrite H2'.
    replace (length (assemble p)) with (length (up_scheme p) + 1 + 2 + length (user_text p) + length (up_host p ++ port_text p))%nat
      by (unfold assemble, tail_text; rewrite Et; len).
    rewrite Ha. destruct (parsed_port p); reflexivity.
Qed.

(** What the accessors return. *)
Lemma url_of_accessors p port : utf8_valid (assemble p) = true -> url_shape p -> parsed_port p = Some port ->
  option_map snd (up_port p) = port -> accessors (url_of p port) p.
Proof.
  intros Hv [H1 H2 H3 H4 H5 H6] Hpp Hport. unfold accessors.
  assert (Es : assemble p = (up_scheme p ++ [58; 47]) ++ 47 :: user_text p ++ up_host p ++ port_text p ++ tail_text p)
    by (unfold assemble; app; reflexivity).
  repeat split.
  - unfold url_scheme, url_of. cbn [u_text u_hier].
    apply (slice_cut _ _ _ [] (up_scheme p) ([58; 47; 47] ++ user_text p ++ up_host p ++ port_text p ++ tail_text p)); auto.
    + apply cut_start. reflexivity.
    + cbn [app]. apply cut_pre; [|lia]. reflexivity.
    + cbn [length]. lia.
  - unfold url_username, url_of. cbn [u_text u_user u_pass u_netloc].
    unfold assemble, user_text, user_pos in *. destruct (up_user p) as [[u [w|]]|]; cbn [fst snd oslice option_map]; [| |reflexivity].
    + match goal with |- context [slice ?s ?i ?j] =>
        rewrite (slice_cut s i j ((up_scheme p ++ [58; 47]) ++ [47]) u (58 :: w ++ 64 :: up_host p ++ port_text p ++ tail_text p)) end; auto.
      * apply cut_post; [|lia]. app. reflexivity.
      * apply cut_pre; [|lia]. app. reflexivity.
      * len.
      * len.
    + match goal with |- context [slice ?s ?i ?j] =>
        rewrite (slice_cut s i j ((up_scheme p ++ [58; 47]) ++ [47]) u (64 :: up_host p ++ port_text p ++ tail_text p)) end; auto.
      * apply cut_post; [|lia]. app. reflexivity.
      * apply cut_pre; [|lia]. app. reflexivity.
      * len.
      * len.
  - unfold url_password, url_of. cbn [u_text u_user u_pass u_netloc].
    unfold assemble, user_text, user_pos in *. destruct (up_user p) as [[u [w|]]|]; cbn [fst snd oslice option_map]; [|reflexivity|reflexivity].
    match goal with |- context [slice ?s ?i ?j] =>
        rewrite (slice_cut s i j ((up_scheme p ++ [58; 47; 47] ++ u) ++ [58]) w (64 :: up_host p ++ port_text p ++ tail_text p)) end; auto.
      * apply cut_post; [|lia]. app. reflexivity.
      * apply cut_pre; [|lia]. app. reflexivity.
      * len.
      * len.
  - unfold url_host. 
    assert (Hst : forall b, assemble p = ((up_scheme p ++ [58; 47; 47]) ++ user_text p) ++ b -> 
       cut (assemble p) ((up_scheme p ++ [58; 47; 47]) ++ user_text p) b).
    { intros b E. apply cut_at_netloc; [|exact E]. exists (up_scheme p ++ [58; 47]), 47. split; [app; reflexivity|lia]. }
    assert (Hsl : forall j, j = Nat.add (length ((up_scheme p ++ [58; 47; 47]) ++ user_text p)) (length (up_host p)) ->
       slice (assemble p) (length (up_scheme p) + 1 + 2 + length (user_text p)) j = ROk (up_host p)).
    { intros j Hj.
      apply (slice_cut _ _ _ ((up_scheme p ++ [58; 47; 47]) ++ user_text p) (up_host p) (port_text p ++ tail_text p)); auto.
      - apply Hst. unfold assemble. app. reflexivity.
      - assert (E : assemble p = (((up_scheme p ++ [58; 47; 47]) ++ user_text p) ++ up_host p) ++ port_text p ++ tail_text p) by (unfold assemble; app; reflexivity).
        unfold port_text in *. destruct (up_port p) as [[t n]|]; cbn [app] in *; [apply cut_pre; [exact E|lia]|].
        destruct (tail_start p H6) as [Ht|(c & r & Ht & Hc)]; rewrite Ht in *.
        + apply cut_stop. now rewrite app_nil_r in E.
        + now apply cut_pre.
      - len. }
    unfold url_of. cbn [u_portpos u_path u_text u_netloc].
    assert (Hp0 : match up_port p with None => port_text p = [] | Some _ => True end) by (unfold port_text; destruct (up_port p) as [[]|]; auto).
    destruct (up_port p) as [[t n]|]; [apply Hsl; len|]. 
    assert (Ht0 : match up_tail p with None => tail_text p = [] | Some _ => True end) by (unfold tail_text; destruct (up_tail p) as [[[] ?]|]; auto).
    rewrite Hp0. destruct (up_tail p); cbn [option_map].
    + apply Hsl; len.
    + apply Hsl. unfold assemble. rewrite Hp0, Ht0. len.
  - unfold url_of. cbn [u_port]. congruence.
  - unfold url_path, url_of. cbn [u_path u_query u_fragment u_text]. unfold tail_shape in H6.
    unfold assemble, tail_text in *. destruct (up_tail p) as [[[path q] f]|]; cbn [option_map]; [|reflexivity].
    destruct H6 as ((r & Hr) & Hf & Hq).
    set (pre := (up_scheme p ++ [58; 47; 47] ++ user_text p ++ up_host p ++ port_text p)).
    assert (E : up_scheme p ++ [58; 47; 47] ++ user_text p ++ up_host p ++ port_text p ++ path ++ opt_text 63 q ++ opt_text 35 f =
       pre ++ path ++ opt_text 63 q ++ opt_text 35 f) by (unfold pre; app; reflexivity).
    assert (Hl : length pre = (length (up_scheme p) + 1 + 2 + length (user_text p) + length (up_host p ++ port_text p))%nat) by (unfold pre; len).
    rewrite <- Hl. rewrite E in *. clearbody pre. clear E Hl Es.
    destruct q as [tq|]; [|destruct f as [tf|]]; cbn [opt_text] in *.
    + apply (slice_cut _ _ _ pre path (63 :: tq ++ opt_text 35 f)); auto.
      * rewrite Hr. cbn [app]. apply cut_pre; [|lia]. app. reflexivity.
      * apply cut_pre; [|lia]. app. reflexivity.
      * len.
    + apply (slice_cut _ _ _ pre path (35 :: tf)); auto.
      * rewrite Hr. cbn [app]. apply cut_pre; [|lia]. app. reflexivity.
      * apply cut_pre; [|lia]. app. reflexivity.
      * len.
    + apply (slice_cut _ _ _ pre path []); auto.
      * rewrite Hr. cbn [app]. apply cut_pre; [|lia]. app. reflexivity.
      * apply cut_stop. app. now rewrite ?app_nil_r.
      * len.
  - unfold url_query, url_of. cbn [u_path u_query u_fragment u_text]. unfold tail_shape in H6.
    unfold assemble, tail_text in *. destruct (up_tail p) as [[[path q] f]|]; cbn [option_map oslice]; [|reflexivity].
    set (pre := (up_scheme p ++ [58; 47; 47] ++ user_text p ++ up_host p ++ port_text p)).
    assert (E : up_scheme p ++ [58; 47; 47] ++ user_text p ++ up_host p ++ port_text p ++ path ++ opt_text 63 q ++ opt_text 35 f =
       pre ++ path ++ opt_text 63 q ++ opt_text 35 f) by (unfold pre; app; reflexivity).
    assert (Hl : length pre = (length (up_scheme p) + 1 + 2 + length (user_text p) + length (up_host p ++ port_text p))%nat) by (unfold pre; len).
    rewrite <- Hl. rewrite E in *. clearbody pre. clear E Hl Es.
    destruct q as [tq|]; cbn [oslice opt_text] in *; [|reflexivity].
    destruct f as [tf|]; cbn [opt_text] in *.
    + rewrite (slice_cut (pre ++ path ++ (63 :: tq) ++ 35 :: tf) _ _ ((pre ++ path) ++ [63]) tq (35 :: tf)); auto.
      * apply cut_post; [|lia]. app. reflexivity.
      * apply cut_pre; [|lia]. app. reflexivity.
      * len.
      * len.
    + rewrite (slice_cut (pre ++ path ++ (63 :: tq) ++ []) _ _ ((pre ++ path) ++ [63]) tq []); auto.
      * apply cut_post; [|lia]. app. now rewrite ?app_nil_r.
      * apply cut_stop. app. now rewrite ?app_nil_r.
      * len.
      * len.
  - unfold url_fragment, url_of. cbn [u_path u_query u_fragment u_text]. unfold tail_shape in H6.
    unfold assemble, tail_text in *. destruct (up_tail p) as [[[path q] f]|]; cbn [option_map oslice]; [|reflexivity].
    set (pre := (up_scheme p ++ [58; 47; 47] ++ user_text p ++ up_host p ++ port_text p)).
    assert (E : up_scheme p ++ [58; 47; 47] ++ user_text p ++ up_host p ++ port_text p ++ path ++ opt_text 63 q ++ opt_text 35 f =
       pre ++ path ++ opt_text 63 q ++ opt_text 35 f) by (unfold pre; app; reflexivity).
    assert (Hl : length pre = (length (up_scheme p) + 1 + 2 + length (user_text p) + length (up_host p ++ port_text p))%nat) by (unfold pre; len).
    rewrite <- Hl. rewrite E in *. clearbody pre. clear E Hl Es.
    destruct f as [tf|]; cbn [oslice opt_text] in *; [|reflexivity].
    rewrite (slice_cut (pre ++ path ++ opt_text 63 q ++ 35 :: tf) _ _ ((pre ++ path ++ opt_text 63 q) ++ [35]) tf []); auto.
      * apply cut_post; [|lia]. app. now rewrite ?app_nil_r.
      * apply cut_stop. app. now rewrite ?app_nil_r.
      * len.
      * len.
Qed.

(** Every string with a scheme and an authority has components. *)
Lemma split_tail t : (exists r, t = 47 :: r) -> exists path q f, t = path ++ opt_text 63 q ++ opt_text 35 f /\ tail_shape (Some (path, q, f)).
Proof.
  intros (r & Hr).
  assert (H1 : exists a f, t = a ++ opt_text 35 f /\ match f with Some x => ~ In 35 x | None => ~ In 35 a end).
  { destruct (rfind_char 35 t) as [n|] eqn:E.
    - apply rfind_char_some in E as (a & b & -> & Hb & _). exists a, (Some b). auto.
    - apply rfind_char_none in E. exists t, None. split; [now rewrite app_nil_r|exact E]. }
  destruct H1 as (a & f & Ha & Hf).
  assert (Hra : exists r', a = 47 :: r').
  { destruct a as [|x a]; [|rewrite Hr in Ha; cbn in Ha; injection Ha as <- Ha; eauto].
    destruct f; cbn in Ha; congruence. }
  assert (H2 : exists path q, a = path ++ opt_text 63 q /\ match q with Some x => ~ In 63 x | None => ~ In 63 path end).
  { destruct (rfind_char 63 a) as [n|] eqn:E.
    - apply rfind_char_some in E as (u & b & -> & Hb & _). exists u, (Some b). auto.
    - apply rfind_char_none in E. exists a, None. split; [now rewrite app_nil_r|exact E]. }
  destruct H2 as (path & q & Hp & Hq). exists path, q, f. split; [rewrite Ha, Hp; now rewrite app_assoc|].
  split; [|split; [|exact Hq]].
  - destruct Hra as (r' & Hr'). destruct path as [|x path].
    + destruct q; cbn in Hp; congruence.
    + rewrite Hp in Hr'. injection Hr' as -> _. eauto.
  - rewrite Hp in Hf. exact Hf.
Qed.

Lemma split_all sc r : ~ In 58 sc -> exists p, sc ++ [58; 47; 47] ++ r = assemble p /\ url_shape p.
Proof.
  intros Hsc.
  assert (H1 : exists auth tail, r = auth ++ tail /\ ~ In 47 auth /\ (tail = [] \/ exists t, tail = 47 :: t)).
  { destruct (find_char 47 r) as [n|] eqn:E.
    - apply find_char_some in E as (a & b & -> & Ha & _). exists a, (47 :: b). eauto.
    - apply find_char_none in E. exists r, []. split; [now rewrite app_nil_r|auto]. }
  destruct H1 as (auth & tail & -> & Hauth & Htail).
  assert (H2 : exists user nl, auth = match user with None => [] | Some (u, None) => u ++ [64] | Some (u, Some w) => u ++ [58] ++ w ++ [64] end ++ nl
     /\ match user with Some (u, _) => ~ In 58 u | None => True end /\ ~ In 64 nl).
  { destruct (rfind_char 64 auth) as [n|] eqn:E.
    - apply rfind_char_some in E as (ui & nl & -> & Hnl & _). destruct (find_char 58 ui) as [m|] eqn:E2.
      + apply find_char_some in E2 as (u & w & -> & Hu & _). exists (Some (u, Some w)), nl. repeat split; auto. app. reflexivity.
      + apply find_char_none in E2. exists (Some (ui, None)), nl. repeat split; auto. app. reflexivity.
    - apply rfind_char_none in E. exists None, auth. auto. }
  destruct H2 as (user & nl & Eauth & Huser & Hnl).
  assert (H3 : exists host port, nl = host ++ match port with None => [] | Some (t, _) => 58 :: t end /\
     match port with None => ends_with [93] host = true \/ ~ In 58 host | Some (t, n) => ends_with [93] (58 :: t) = false /\ ~ In 58 t end
     /\ forall t n, port = Some (t, n) -> n = match parse_uint 10 65535 t with Some m => m | None => 0 end).
  { destruct (ends_with [93] nl) eqn:Ee.
    - exists nl, None. split; [now rewrite app_nil_r|]. split; [auto|discriminate].
    - destruct (rfind_char 58 nl) as [n|] eqn:E.
      + apply rfind_char_some in E as (h & t & -> & Ht & _). rewrite ends_with_tail in Ee.
        exists h, (Some (t, match parse_uint 10 65535 t with Some m => m | None => 0 end)). split; [reflexivity|]. split; [auto|].
        intros t0 n0 [= <- <-]. reflexivity.
      + apply rfind_char_none in E. exists nl, None. split; [now rewrite app_nil_r|]. split; [auto|discriminate]. }
  destruct H3 as (host & port & Enl & Hport & Hn).
  assert (H4 : exists t, tail = match t with None => [] | Some (path, q, f) => path ++ opt_text 63 q ++ opt_text 35 f end /\ tail_shape t).
  { destruct Htail as [->|Ht]; [exists None; split; [auto|exact I]|]. destruct (split_tail tail Ht) as (path & q & f & Hp & Hs). exists (Some (path, q, f)). auto. }
  destruct H4 as (t & Et & Ht).
  exists {| up_scheme := sc; up_user := user; up_host := host; up_port := port; up_tail := t |}. split.
  - unfold assemble, user_text, port_text, tail_text. cbn [up_scheme up_user up_host up_port up_tail].
    rewrite Eauth, Enl, Et, <- !app_assoc. reflexivity.
  - rewrite Eauth, Enl in Hauth. rewrite Enl in Hnl.
    constructor; unfold user_text, port_text, port_shape; cbn [up_scheme up_user up_host up_port up_tail]; auto.
Qed.

Lemma url_parse_cases s : utf8_valid s = true ->
  (exists p, s = assemble p /\ url_shape p) \/
  (url_parse s = RErr /\ forall p, ~ In 58 (up_scheme p) -> s <> assemble p).
Proof.
  intros Hv. destruct (find_char 58 s) as [n|] eqn:E.
  - pose proof (find_char_some _ _ _ E) as (sc & rest & -> & Hsc & ->).
    destruct (starts_with [47; 47] rest) eqn:Es.
    + apply starts_with_iff in Es as (r & ->). left. destruct (split_all sc r Hsc) as (p & Hp & Hs). exists p. auto.
    + right. split.
      * unfold url_parse. rewrite E. cbv zeta. rewrite (slice_cut _ _ _ (sc ++ [58]) rest []); auto.
        -- cbn [rbind]. now rewrite Es.
        -- apply cut_post; [|lia]. app. now rewrite app_nil_r.
        -- apply cut_stop. app. reflexivity.
        -- len.
        -- len.
      * intros p Hp Heq. assert (rest = 47 :: 47 :: user_text p ++ up_host p ++ port_text p ++ tail_text p).
        { unfold assemble in Heq. cbn [app] in Heq.
          revert Heq Hsc Hp. generalize (up_scheme p) (47 :: 47 :: user_text p ++ up_host p ++ port_text p ++ tail_text p). clear.
          induction sc as [|x sc IH]; intros [|y l] r H H1 H2; cbn [app] in H.
          - congruence.
          - exfalso. apply H2. left. congruence.
          - exfalso. apply H1. left. congruence.
          - assert (H' : sc ++ 58 :: rest = l ++ 58 :: r) by congruence.
            apply (IH l); auto; intros Hi; [apply H1|apply H2]; right; auto. }
        subst rest. discriminate.
  - right. split.
    + unfold url_parse. now rewrite E.
    + intros p _ ->. apply find_char_none in E. apply E. unfold assemble. apply in_or_app. right. now left.
Qed.

Lemma ok_shape p : url_ok p -> url_shape p /\ parsed_port p = Some (option_map snd (up_port p)).
Proof.
  intros [H1 H2 H3 H4 H5 H6]. split.
  - constructor; auto; unfold port_shape. destruct (up_port p) as [[t n]|]; [|exact H5]. now destruct H5 as (? & ? & _).
  - unfold parsed_port. destruct (up_port p) as [[t n]|]; [|reflexivity]. destruct H5 as (_ & _ & ->). reflexivity.
Qed.

Definition set_port (p : url_parts) (n : N) : url_parts :=
  {| up_scheme := up_scheme p; up_user := up_user p; up_host := up_host p;
     up_port := option_map (fun x => (fst x, n)) (up_port p); up_tail := up_tail p |}.

Lemma shape_ok p port : url_shape p -> parsed_port p = Some port ->
  exists p', assemble p' = assemble p /\ url_ok p' .
Proof.
  intros [H1 H2 H3 H4 H5 H6] Hp. unfold parsed_port in Hp. unfold port_shape in H5. destruct (up_port p) as [[t n]|] eqn:E.
  - destruct (parse_uint 10 65535 t) as [m|] eqn:Em; [|discriminate]. exists (set_port p m).
    assert (Ept : port_text (set_port p m) = port_text p) by (unfold port_text, set_port; cbn [up_port]; rewrite E; reflexivity).
    split; [unfold assemble; rewrite Ept; reflexivity|].
    constructor; try rewrite Ept; auto. unfold set_port. cbn [up_port]. rewrite E. cbn [option_map fst]. tauto.
  - exists p. split; [reflexivity|]. constructor; auto. rewrite E. exact H5.
Qed.

Lemma url_parse_ok p : utf8_valid (assemble p) = true -> url_ok p ->
  exists u, url_parse (assemble p) = ROk u /\ accessors u p.
Proof.
  intros Hv Hok. destruct (ok_shape p Hok) as [Hs Hp]. rewrite (url_parse_shape p Hv Hs), Hp.
  eexists. split; [reflexivity|]. apply url_of_accessors; auto.
Qed.

(** The components of a URL are unique. *)
Lemma url_parts_unique p q : utf8_valid (assemble p) = true -> url_ok p -> url_ok q -> assemble p = assemble q ->
  up_scheme p = up_scheme q /\ up_user p = up_user q /\ up_host p = up_host q /\ option_map snd (up_port p) = option_map snd (up_port q).
Proof.
  intros Hv Hp Hq E. destruct (url_parse_ok p Hv Hp) as (u & Hu & A1 & A2 & A3 & A4 & A5 & A6 & A7 & A8).
  rewrite E in Hv, Hu. destruct (url_parse_ok q Hv Hq) as (u' & Hu' & B1 & B2 & B3 & B4 & B5 & B6 & B7 & B8).
  assert (u = u') by congruence. subst u'.
  repeat split; try congruence.
  assert (E2 : option_map fst (up_user p) = option_map fst (up_user q)) by congruence.
  assert (E3 : match up_user p with Some (_, w) => w | None => None end = match up_user q with Some (_, w) => w | None => None end) by congruence.
  destruct (up_user p) as [[]|], (up_user q) as [[]|]; cbn in E2, E3; congruence.
Qed.

Lemma url_parse_total s : utf8_valid s = true ->
  (exists p u, url_ok p /\ s = assemble p /\ url_parse s = ROk u /\ accessors u p) \/
  (url_parse s = RErr /\ forall p, url_ok p -> s <> assemble p).
Proof.
  intros Hv. destruct (url_parse_cases s Hv) as [(p & -> & Hs)|[He Hn]].
  - destruct (parsed_port p) as [port|] eqn:Ep.
    + left. destruct (shape_ok p port Hs Ep) as (p' & Ea & Hok). rewrite <- Ea in *.
      destruct (url_parse_ok p' Hv Hok) as (u & Hu & Ha). exists p', u. auto.
    + right. rewrite (url_parse_shape p Hv Hs), Ep. split; [reflexivity|]. intros q Hq E.
      rewrite E in Hv. destruct (url_parse_ok q Hv Hq) as (u & Hu & _). rewrite <- E in Hv, Hu.
      rewrite (url_parse_shape p Hv Hs), Ep in Hu. discriminate.
  - right. split; [exact He|]. intros p Hp. apply Hn. apply Hp.
Qed.
