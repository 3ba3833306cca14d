(** Requests and how a server reads them. *)
From Coq Require Import String ZArith NArith List Bool Lia ZifyBool ZifyNat ZifyN.
From Verif.Model Require Import Bytes Text Utf8 Url Service Http Request.
From Verif.Spec Require Import HttpSpec UrlSpec RequestSpec SdpSpec.
From Verif.Proofs Require Import BytesFacts TextProofs UrlProofs DecFacts HttpResponse HttpFinal SdpText RawChecks.
Import ListNotations.
Local Open Scope N_scope.

(** ** Text *)
Lemma ascii_app a s : Forall (fun b => b < 128) a -> utf8_valid (a ++ s) = utf8_valid s.
Proof. induction 1 as [|b a Hb _ IH]; cbn [app utf8_valid]; [reflexivity|]. now replace (b <=? 127) with true by lia. Qed.
Lemma digit_ascii s : Forall is_digit s -> Forall (fun b => b < 128) s.
Proof. apply Forall_impl. unfold is_digit. intros. lia. Qed.
Lemma Forall_out (P : N -> Prop) s x : Forall P s -> ~ P x -> ~ In x s.
Proof. rewrite Forall_forall. firstorder. Qed.

(** The characters of a printed address *)
Definition host_char (b : N) : Prop := 46 <= b <= 58 /\ b <> 47 \/ 97 <= b <= 102 \/ b = 91 \/ b = 93.
Lemma join_chars (P : N -> Prop) sep l : Forall P sep -> Forall (Forall P) l -> Forall P (join sep l).
Proof.
  intros Hs. induction 1 as [|p l Hp Hl IH]; cbn [join]; [constructor|]. destruct l as [|q l]; [assumption|].
  apply Forall_app. split; [assumption|]. apply Forall_app. now split.
Qed.
Lemma v4_chars n : Forall (fun b => is_digit b \/ b = 46) (v4_text n).
Proof.
  apply join_chars; [constructor; [now right|constructor]|]. apply Forall_forall. intros p Hp. apply in_map_iff in Hp as (d & <- & _).
  eapply Forall_impl; [|apply dec_digits]. now left.
Qed.

Lemma parse_keeps s u : url_parse s = ROk u -> u_text u = s.
Proof.
  unfold url_parse, rbind. intros H.
  repeat match type of H with context [match ?x with _ => _ end] => destruct x; try discriminate end; injection H as <-; reflexivity.
Qed.

(** A header with fields of different names *)
Lemma set_new lc f h : (forall g, In g (f_list h) -> lc (hf_name g) <> lc (hf_name f)) -> f_list (fields_set lc f h) = f_list h ++ [f].
Proof.
  intros H. cbn [fields_set f_list]. f_equal. induction (f_list h) as [|g l IH]; [reflexivity|]. cbn [filter].
  destruct (beq (lc (hf_name f)) (lc (hf_name g))) eqn:E.
  - apply beq_spec in E. exfalso. apply (H g); [now left|congruence].
  - cbn [negb]. f_equal. apply IH. intros g' Hg. apply H. now right.
Qed.

Lemma ascii_lit s : forallb (fun b => b <? 128) s = true -> Forall (fun b => b < 128) s.
Proof. intros H. apply Forall_forall. intros b Hb. rewrite forallb_forall in H. specialize (H b Hb). lia. Qed.

(** ** Reading *)
Lemma first_line_clean l r : ~ In 10 l -> first_line (l ++ 13 :: 10 :: r) = Some (l, r).
Proof.
  induction l as [|b l IH]; intros H; [reflexivity|].
  assert (N : ~ In 10 l) by (intros X; apply H; now right). specialize (IH N).
  cbn [app first_line]. destruct l as [|c l]; cbn [app] in *.
  - replace ((b =? 13) && (13 =? 10)) with false by lia. now rewrite IH.
  - replace ((b =? 13) && (c =? 10)) with false by (assert (c <> 10) by (intros ->; apply N; now left); lia). now rewrite IH.
Qed.
Lemma read_lines_ends : forall ls r fuel, Forall (fun l => l <> [] /\ ~ In 10 l) ls -> (List.length ls < fuel)%nat ->
  read_lines fuel (with_ends ls ++ 13 :: 10 :: r) = Some (ls, r).
Proof.
  induction ls as [|l ls IH]; intros r fuel H L; (destruct fuel as [|f]; [cbn in L; lia|]); [reflexivity|].
  inversion H as [|? ? [Hn Hi] Hl]; subst. cbn [read_lines]. unfold with_ends. cbn [map List.concat]. rewrite <- !app_assoc.
  change ([13; 10] ++ ?x) with (13 :: 10 :: x). rewrite first_line_clean by assumption. destruct l as [|b l]; [congruence|].
  change (List.concat (map (fun l => l ++ [13; 10]) ls)) with (with_ends ls). rewrite IH; [reflexivity|assumption|cbn in L; lia].
Qed.
Lemma with_ends_length ls : (List.length ls <= List.length (with_ends ls))%nat.
Proof. induction ls as [|l ls IH]; unfold with_ends in *; cbn [map List.concat List.length]; [lia|]. rewrite !app_length. cbn [List.length]. lia. Qed.

Lemma split_on_none c s : ~ In c s -> split_on c s = [s].
Proof.
  induction s as [|b s IH]; intros H; cbn [split_on]; [reflexivity|]. replace (b =? c) with false by (assert (b <> c) by (intros ->; apply H; now left); lia).
  rewrite IH; [reflexivity|]. intros X. apply H. now right.
Qed.
Lemma split_on_app c s t : ~ In c s -> split_on c (s ++ c :: t) = s :: split_on c t.
Proof.
  induction s as [|b s IH]; intros H; cbn [split_on app]; [now rewrite N.eqb_refl|].
  replace (b =? c) with false by (assert (b <> c) by (intros ->; apply H; now left); lia).
  rewrite IH; [reflexivity|]. intros X. apply H. now right.
Qed.

Lemma trim_space v : trim (32 :: v) = trim v.
Proof. reflexivity. Qed.
Lemma field_read n v : ~ In 58 n -> Forall visible n -> n <> [] -> Forall visible v -> v <> [] ->
  field_parse (n ++ [58; 32] ++ v) = field n v.
Proof.
  intros C V1 N1 V2 N2. change (n ++ [58; 32] ++ v) with (n ++ [58] ++ (32 :: v)). rewrite field_exact by assumption.
  rewrite trim_space, !word_ends by assumption. reflexivity.
Qed.

Lemma read_all m t p fs : ~ In 32 m -> unbroken t -> ~ In 32 p -> ~ In 10 m -> ~ In 10 p ->
  Forall (fun f => exists v, hf_value f = Some v /\ ~ In 58 (hf_name f) /\ Forall visible (hf_name f) /\ hf_name f <> [] /\ Forall visible v /\ v <> []) fs ->
  forall rest, read_request (with_ends ((m ++ [32] ++ t ++ [32] ++ p) :: map field_text fs) ++ 13 :: 10 :: rest) =
    Some {| rd_method := m; rd_target := t; rd_protocol := p; rd_fields := fs; rd_rest := rest |}.
Proof.
  intros Hm Ht Hp Hm2 Hp2 Hf rest. unfold read_request.
  assert (T32 : ~ In 32 t) by (apply (Forall_out _ _ _ Ht); tauto). assert (T10 : ~ In 10 t) by (apply (Forall_out _ _ _ Ht); tauto).
  rewrite read_lines_ends.
  - cbn [app]. rewrite split_on_app by assumption. rewrite split_on_app by assumption. rewrite split_on_none by assumption.
    do 2 f_equal. rewrite map_map. rewrite <- (map_id fs) at 2. apply map_ext_in. intros f Hi. rewrite Forall_forall in Hf.
    destruct (Hf f Hi) as (v & E & A & B & C & D & F). unfold field_text. rewrite E, field_read by assumption. unfold field. destruct f. cbn in *. now subst.
  - constructor.
    + split; [destruct m; discriminate|]. intros X. cbn [app] in X. apply in_app_or in X as [X|[X|X]]; [tauto|lia|].
      apply in_app_or in X as [X|[X|X]]; [tauto|lia|tauto].
    + apply Forall_forall. intros l Hl. apply in_map_iff in Hl as (f & <- & Hi). rewrite Forall_forall in Hf.
      destruct (Hf f Hi) as (v & E & A & B & C & D & F). unfold field_text. rewrite E. split; [destruct (hf_name f); [congruence|discriminate]|].
      intros X. apply in_app_or in X as [X|X]; [|cbn [app] in X; destruct X as [X|[X|X]]; [lia|lia|]];
        (rewrite Forall_forall in B, D); [specialize (B _ X)|specialize (D _ X)]; unfold visible in *; lia.
  - match goal with |- (_ < List.length (with_ends ?l ++ _))%nat => pose proof (with_ends_length l) as L; rewrite app_length; apply (Nat.le_lt_trans _ _ _ L) end. cbn [List.length]. apply Nat.lt_add_pos_r. lia.
Qed.

Section Probe.
  Variable lc : bytes -> bytes.
  Variable ver : bytes.
  Variable v6 : N -> bytes.
  Hypothesis Hlc : ascii_lc lc.
  Hypothesis Hv6 : v6_ok v6.

  Lemma host_chars i : Forall host_char (host_text v6 i).
  Proof.
    clear Hlc ver. unfold host_text. destruct i as [n|n].
    - eapply Forall_impl; [|apply v4_chars]. unfold is_digit, host_char. cbv beta. intros b H. lia.
    - apply Forall_app. split; [constructor; [unfold host_char; lia|constructor]|]. apply Forall_app. split.
      + eapply Forall_impl; [|apply Hv6]. unfold v6_char, host_char. intros b H. lia.
      + constructor; [unfold host_char; lia|constructor].
  Qed.
  Lemma host_ascii i : Forall (fun b => b < 128) (host_text v6 i).
  Proof. eapply Forall_impl; [|apply host_chars]. unfold host_char. cbv beta. intros; lia. Qed.
  Lemma saddr_ascii a : Forall (fun b => b < 128) (saddr_text v6 a).
  Proof.
    unfold saddr_text. apply Forall_app. split; [apply host_ascii|]. apply Forall_app. split; [constructor; [lia|constructor]|].
    apply digit_ascii, dec_digits.
  Qed.

  Lemma ends_digit t : Forall is_digit t -> ends_with [93] (58 :: t) = false.
  Proof.
    intros H. destruct (ends_with [93] (58 :: t)) eqn:E; [|reflexivity]. apply ends_with_iff in E as (r & E). exfalso.
    destruct r as [|x r]; cbn [app] in E; [discriminate|]. injection E as _ E. rewrite E in H. apply Forall_app in H as [_ H].
    inversion H as [|? ? X]. unfold is_digit in X. lia.
  Qed.

  Definition parts (scheme : bytes) (a : saddr) tail : url_parts :=
    {| up_scheme := scheme; up_user := None; up_host := host_text v6 (sa_ip a); up_port := Some (print_dec (sa_port a), sa_port a); up_tail := tail |}.

  Lemma parts_ok scheme a tail : ~ In 58 scheme -> addr_ok a ->
    match tail with
    | None => True
    | Some (path, q, f) =>
        (exists r, path = 47 :: r) /\ match f with Some t => ~ In 35 t | None => ~ In 35 (path ++ opt_text 63 q) end /\
        match q with Some t => ~ In 63 t | None => ~ In 63 path end
    end -> url_ok (parts scheme a tail).
  Proof.
    intros Hs Ha Ht. unfold addr_ok in Ha. pose proof (host_chars (sa_ip a)) as H. pose proof (dec_digits (sa_port a)) as D.
    assert (A : Forall (fun b => host_char b) (host_text v6 (sa_ip a) ++ 58 :: print_dec (sa_port a))).
    { apply Forall_app. split; [assumption|]. constructor; [unfold host_char; lia|]. eapply Forall_impl; [|exact D].
      unfold is_digit, host_char. intros; lia. }
    constructor; cbn [parts up_scheme up_user up_host up_port up_tail user_text port_text app].
    - assumption.
    - unfold user_text, port_text. cbn [up_user up_port parts app]. apply (Forall_out host_char); [assumption|unfold host_char; lia].
    - exact I.
    - unfold port_text. cbn [up_port parts]. apply (Forall_out host_char); [assumption|unfold host_char; lia].
    - split; [now apply ends_digit|]. split; [apply (Forall_out is_digit); [assumption|unfold is_digit; lia]|now apply dec_parse].
    - exact Ht.
  Qed.

  (** The URL of a probe *)
  Lemma probe_url scheme a path : Forall (fun b => b < 128) scheme -> ~ In 58 scheme -> addr_ok a -> slash path -> utf8_valid path = true ->
    exists tail u, url_ok (parts scheme a tail) /\ tail_text (parts scheme a tail) = path /\
      url_parse ((scheme ++ [58; 47; 47]) ++ saddr_text v6 a ++ path) = ROk u /\ accessors u (parts scheme a tail) /\
      u_text u = (scheme ++ [58; 47; 47]) ++ saddr_text v6 a ++ path.
  Proof.
    intros Sa Sc Ha Hs Hu.
    assert (T : exists tail, url_ok (parts scheme a tail) /\ tail_text (parts scheme a tail) = path).
    { destruct Hs as [->|Hs].
      - exists None. split; [now apply parts_ok|reflexivity].
      - destruct (split_tail path Hs) as (p & q & f & E & S). exists (Some (p, q, f)). split; [now apply parts_ok|]. now rewrite E. }
    destruct T as (tail & Ok & Et). exists tail.
    assert (E : (scheme ++ [58; 47; 47]) ++ saddr_text v6 a ++ path = assemble (parts scheme a tail)).
    { unfold assemble, saddr_text. cbn [parts up_scheme up_host]. unfold user_text, port_text. cbn [parts up_user up_port app]. rewrite Et.
      rewrite <- !app_assoc. reflexivity. }
    assert (V : utf8_valid (assemble (parts scheme a tail)) = true).
    { rewrite <- E. rewrite ascii_app, ascii_app; [assumption|apply saddr_ascii|].
      apply Forall_app. split; [assumption|]. repeat (constructor; [lia|]). constructor. }
    destruct (url_parse_ok _ V Ok) as (u & P & Acc). exists u. rewrite E. split; [assumption|]. split; [assumption|].
    split; [assumption|]. split; [assumption|]. now apply parse_keeps.
  Qed.

  Lemma lc_lit s : forallb (fun b => b <? 128) s = true -> lc s = map lower s.
  Proof. intros H. apply Hlc. now apply ascii_lit. Qed.

  Lemma http_scheme_ok : http_scheme lc (lit "http"%string) = Some 80.
  Proof. unfold http_scheme. now rewrite lc_lit. Qed.
  Lemma rtsp_scheme_ok : rtsp_scheme lc (lit "rtsp"%string) = Some 554.
  Proof. unfold rtsp_scheme. now rewrite lc_lit. Qed.

  Lemma two_fields n1 n2 v1 v2 (p v m t : bytes) : lc n1 <> lc n2 ->
    f_list (g_fields (g_set_field lc n2 v2 (g_set_field lc n1 v1 (g_new p v m t)))) = [field n1 v1; field n2 v2].
  Proof.
    intros D. unfold g_set_field at 1. cbn [g_with_fields g_fields]. rewrite set_new.
    - reflexivity.
    - intros g [<-|[]]. exact D.
  Qed.

  Lemma tail_target tail path a scheme : url_ok (parts scheme a tail) -> tail_text (parts scheme a tail) = path ->
    match tail with Some (p, _, _) => p | None => [47] end ++ match (match tail with Some (_, q, _) => q | None => None end) with Some q => [63] ++ q | None => [] end
    = http_target path.
  Proof.
    intros Ok E. destruct Ok as [_ _ _ _ _ T]. cbn [parts up_tail] in T. unfold tail_text in E. cbn [parts up_tail] in E.
    destruct tail as [[[p q] f]|].
    - destruct T as ((r & ->) & Tf & _). rewrite <- E. cbn [app]. unfold http_target. cbv iota. unfold cut_fragment.
      change ((47 :: r) ++ opt_text 63 q ++ opt_text 35 f) with (47 :: r ++ opt_text 63 q ++ opt_text 35 f) in *.
      change (47 :: r ++ opt_text 63 q ++ opt_text 35 f) with ((47 :: r) ++ opt_text 63 q ++ opt_text 35 f).
      rewrite app_assoc. destruct f as [t|]; cbn [opt_text].
      + rewrite rfind_char_app by assumption. rewrite firstn_app, Nat.sub_diag, firstn_all. cbn [firstn]. rewrite app_nil_r. now destruct q.
      + rewrite app_nil_r. apply rfind_char_none in Tf. rewrite Tf. now destruct q.
    - rewrite <- E. reflexivity.
  Qed.

  Lemma http_probe_ok t a path : addr_ok a -> slash path -> utf8_valid path = true ->
    exists r, http_probe lc ver v6 t a path = ROk r /\ rq_host r = host_text v6 (sa_ip a) /\ rq_port r = sa_port a /\
      rq_timeout r = Some t /\ rq_ignore r = true /\
      encode (rq_inner r) = with_ends [lit "GET "%string ++ http_target path ++ lit " HTTP/1.0"%string;
                                       lit "Host: "%string ++ host_text v6 (sa_ip a);
                                       lit "User-Agent: ArrowClient/"%string ++ ver] ++ [13; 10].
  Proof.
    intros Ha Hs Hu. destruct (probe_url (lit "http"%string) a path) as (tail & u & Ok & Et & P & Acc & _); auto.
    { now apply ascii_lit. }
    { vm_compute. intros H. repeat (destruct H as [H|H]; [discriminate|]). exact H. }
    unfold http_probe, http_get_header, http_request.
    change (lit "http://"%string) with (lit "http"%string ++ [58; 47; 47]). rewrite P. cbn [rbind].
    destruct Acc as (A1 & _ & _ & A2 & A3 & A4 & A5 & _). rewrite A1. cbn [rbind parts up_scheme]. rewrite http_scheme_ok.
    rewrite A2. cbn [rbind parts up_host]. rewrite A3, A4, A5. cbn [rbind]. cbv zeta.
    eexists. split; [reflexivity|]. split; [reflexivity|]. split; [reflexivity|]. split; [reflexivity|]. split; [reflexivity|].
    cbn [with_timeout new_request rq_inner]. unfold encode, request_text. rewrite two_fields by (rewrite !lc_lit by reflexivity; discriminate).
    rewrite <- (tail_target tail path a _ Ok Et). cbn [parts up_tail g_set_field g_with_fields g_new g_body g_method g_path g_protocol g_version].
    unfold with_ends. cbn [flat_map map List.concat field_text field hf_name hf_value]. unfold user_agent, http_name.
    destruct tail as [[[p q] f]|]; [destruct q as [q|]|]; repeat rewrite <- app_assoc; cbn [app lit list_ascii_of_string map]; rewrite ?app_nil_r; reflexivity.
  Qed.

  Lemma rtsp_request_ok m a path ignore : addr_ok a -> slash path -> utf8_valid path = true ->
    exists r, rtsp_request lc ver m (lit "rtsp://"%string ++ saddr_text v6 a ++ path) ignore = ROk r /\
      rq_host r = host_text v6 (sa_ip a) /\ rq_port r = sa_port a /\ rq_ignore r = ignore /\
      g_method (rq_inner r) = rtsp_name m /\ g_path (rq_inner r) = lit "rtsp://"%string ++ saddr_text v6 a ++ path /\
      g_protocol (rq_inner r) = lit "RTSP"%string /\ g_version (rq_inner r) = lit "1.0"%string /\ g_body (rq_inner r) = [] /\
      f_list (g_fields (rq_inner r)) = [field (lit "CSeq"%string) (print_dec 1); field (lit "User-Agent"%string) (user_agent ver)].
  Proof.
    intros Ha Hs Hu. destruct (probe_url (lit "rtsp"%string) a path) as (tail & u & Ok & Et & P & Acc & Eu); auto.
    { now apply ascii_lit. }
    { vm_compute. intros H. repeat (destruct H as [H|H]; [discriminate|]). exact H. }
    unfold rtsp_request. change (lit "rtsp://"%string) with (lit "rtsp"%string ++ [58; 47; 47]). rewrite P. cbn [rbind].
    destruct Acc as (A1 & _ & _ & A2 & A3 & A4 & A5 & _). rewrite A1. cbn [rbind parts up_scheme]. rewrite rtsp_scheme_ok.
    rewrite A2. cbn [rbind parts up_host]. rewrite A3. cbv zeta. eexists. split; [reflexivity|].
    cbn [new_request rq_host rq_port rq_ignore rq_inner].
    rewrite two_fields by (rewrite !lc_lit by reflexivity; discriminate).
    cbn [g_set_field g_with_fields g_new g_body g_method g_path g_protocol g_version]. rewrite Eu. auto 12.
  Qed.

  Lemma options_ok t a : addr_ok a ->
    exists r, rtsp_probe lc ver v6 t a = ROk r /\ rq_host r = host_text v6 (sa_ip a) /\ rq_port r = sa_port a /\
      rq_timeout r = Some t /\ rq_ignore r = true /\
      encode (rq_inner r) = with_ends [lit "OPTIONS rtsp://"%string ++ saddr_text v6 a ++ lit "/ RTSP/1.0"%string;
                                       lit "CSeq: 1"%string; lit "User-Agent: ArrowClient/"%string ++ ver] ++ [13; 10].
  Proof.
    intros Ha. destruct (rtsp_request_ok ROPTIONS a [47] true Ha) as (r & E & A & B & C & D1 & D2 & D3 & D4 & D5 & D6); [right; eauto|reflexivity|].
    unfold rtsp_probe, rtsp_options. rewrite E. cbn [rbind]. eexists. split; [reflexivity|]. cbn [with_timeout rq_host rq_port rq_timeout rq_ignore rq_inner].
    do 4 (split; [auto|]). unfold encode, request_text. rewrite D1, D2, D3, D4, D5, D6.
    unfold with_ends. cbn [flat_map map List.concat field_text field hf_name hf_value]. unfold user_agent, rtsp_name.
    repeat rewrite <- app_assoc. reflexivity.
  Qed.
  Lemma describe_ok t a path : addr_ok a -> slash path -> utf8_valid path = true ->
    exists r, describe_probe lc ver v6 t a path = ROk r /\ rq_host r = host_text v6 (sa_ip a) /\ rq_port r = sa_port a /\
      rq_timeout r = Some t /\ rq_ignore r = false /\
      encode (rq_inner r) = with_ends [lit "DESCRIBE rtsp://"%string ++ saddr_text v6 a ++ path ++ lit " RTSP/1.0"%string;
                                       lit "CSeq: 1"%string; lit "User-Agent: ArrowClient/"%string ++ ver;
                                       lit "Accept: application/sdp"%string] ++ [13; 10].
  Proof.
    intros Ha Hs Hu. destruct (rtsp_request_ok RDESCRIBE a path false Ha Hs Hu) as (r & E & A & B & C & D1 & D2 & D3 & D4 & D5 & D6).
    unfold describe_probe, rtsp_describe. rewrite E. cbn [rbind]. eexists. split; [reflexivity|].
    cbn [with_timeout with_inner rq_host rq_port rq_timeout rq_ignore rq_inner].
    do 4 (split; [auto|]). unfold encode, request_text.
    assert (F : f_list (g_fields (g_set_field lc (lit "Accept"%string) (lit "application/sdp"%string) (rq_inner r))) =
                [field (lit "CSeq"%string) (print_dec 1); field (lit "User-Agent"%string) (user_agent ver); field (lit "Accept"%string) (lit "application/sdp"%string)]).
    { unfold g_set_field. cbn [g_with_fields g_fields]. rewrite set_new; rewrite D6; [reflexivity|].
      intros g [<-|[<-|[]]]; cbn [hf_name field]; rewrite !lc_lit by reflexivity; discriminate. }
    rewrite F. cbn [g_set_field g_with_fields g_body g_method g_path g_protocol g_version]. rewrite D1, D2, D3, D4, D5.
    unfold with_ends. cbn [flat_map map List.concat field_text field hf_name hf_value]. unfold user_agent, rtsp_name.
    repeat rewrite <- app_assoc. reflexivity.
  Qed.

  (** ** What the server reads *)
  Lemma host_visible i : Forall visible (host_text v6 i).
  Proof. eapply Forall_impl; [|apply host_chars]. unfold host_char, visible. cbv beta. intros; lia. Qed.
  Lemma host_some i : host_text v6 i <> [].
  Proof.
    destruct i as [n|n]; [|discriminate]. unfold host_text, v4_text.
    destruct (to_be 4 n) as [|a l] eqn:E.
    - apply (f_equal (@List.length N)) in E. rewrite to_be_length in E. discriminate.
    - cbn [map join]. destruct (map print_dec l); [apply dec_some|]. intros X. apply app_eq_nil in X as [X _]. now apply dec_some in X.
  Qed.
  Lemma lit_visible s : forallb (fun b => (33 <=? b) && (b <=? 126)) s = true -> Forall visible s.
  Proof. intros H. apply Forall_forall. intros b Hb. rewrite forallb_forall in H. specialize (H b Hb). unfold visible. lia. Qed.
  Hypothesis Hver : Forall visible ver.
  Lemma agent_visible : Forall visible (lit "ArrowClient/"%string ++ ver).
  Proof. apply Forall_app. split; [now apply lit_visible|]. eapply Forall_impl; [|exact Hver]. auto. Qed.
  Lemma lit_out c s : forallb (fun b => negb (b =? c)) s = true -> ~ In c s.
  Proof. intros H X. rewrite forallb_forall in H. specialize (H _ X). now rewrite N.eqb_refl in H. Qed.
  Lemma unbroken_sub a b : unbroken (a ++ b) -> unbroken a.
  Proof. unfold unbroken. intros H. now apply Forall_app in H. Qed.
  Lemma target_unbroken path : unbroken path -> unbroken (http_target path).
  Proof.
    intros H. unfold http_target. destruct path as [|b path]; [constructor; [lia|constructor]|]. unfold cut_fragment.
    destruct (rfind_char 35 (b :: path)); [|assumption]. apply (unbroken_sub _ (skipn n (b :: path))). now rewrite firstn_skipn.
  Qed.
  Lemma saddr_unbroken a : unbroken (saddr_text v6 a).
  Proof.
    unfold unbroken, saddr_text. apply Forall_app. split; [|apply Forall_app; split; [constructor; [lia|constructor]|]].
    - eapply Forall_impl; [|apply host_chars]. unfold host_char. cbv beta. intros; lia.
    - eapply Forall_impl; [|apply dec_digits]. unfold is_digit. cbv beta. intros; lia.
  Qed.
  Ltac readable := repeat constructor; eexists; (split; [reflexivity|]); cbn [hf_name field];
    (split; [apply lit_out; reflexivity|]); (split; [apply lit_visible; reflexivity|]); (split; [discriminate|]).

  Lemma http_read t a path rest : addr_ok a -> slash path -> utf8_valid path = true -> unbroken path ->
    exists r, http_probe lc ver v6 t a path = ROk r /\
      read_request (encode (rq_inner r) ++ rest) =
      Some {| rd_method := lit "GET"%string; rd_target := http_target path; rd_protocol := lit "HTTP/1.0"%string;
              rd_fields := [field (lit "Host"%string) (host_text v6 (sa_ip a)); field (lit "User-Agent"%string) (lit "ArrowClient/"%string ++ ver)];
              rd_rest := rest |}.
  Proof.
    intros Ha Hs Hu Hp. destruct (http_probe_ok t a path Ha Hs Hu) as (r & E & _ & _ & _ & _ & En). exists r. split; [assumption|]. rewrite En.
    rewrite <- app_assoc. cbn [app].
    refine (read_all (lit "GET"%string) (http_target path) (lit "HTTP/1.0"%string)
              [field (lit "Host"%string) (host_text v6 (sa_ip a)); field (lit "User-Agent"%string) (lit "ArrowClient/"%string ++ ver)] _ _ _ _ _ _ rest);
      try (apply lit_out; reflexivity); [now apply target_unbroken|].
    constructor; [|constructor; [|constructor]]; eexists; (split; [reflexivity|]); cbn [hf_name field];
      (split; [apply lit_out; reflexivity|]); (split; [apply lit_visible; reflexivity|]); (split; [discriminate|]).
    - split; [apply host_visible|apply host_some].
    - split; [apply agent_visible|discriminate].
  Qed.
  Lemma describe_read t a path rest : addr_ok a -> slash path -> utf8_valid path = true -> unbroken path ->
    exists r, describe_probe lc ver v6 t a path = ROk r /\
      read_request (encode (rq_inner r) ++ rest) =
      Some {| rd_method := lit "DESCRIBE"%string; rd_target := lit "rtsp://"%string ++ saddr_text v6 a ++ path; rd_protocol := lit "RTSP/1.0"%string;
              rd_fields := [field (lit "CSeq"%string) (lit "1"%string); field (lit "User-Agent"%string) (lit "ArrowClient/"%string ++ ver);
                            field (lit "Accept"%string) (lit "application/sdp"%string)];
              rd_rest := rest |}.
  Proof.
    intros Ha Hs Hu Hp. destruct (describe_ok t a path Ha Hs Hu) as (r & E & _ & _ & _ & _ & En). exists r. split; [assumption|]. rewrite En.
    rewrite <- app_assoc. cbn [app].
    assert (U : unbroken (lit "rtsp://"%string ++ saddr_text v6 a ++ path)).
    { apply Forall_app. split; [repeat (constructor; [cbn; lia|]); constructor|]. apply Forall_app. split; [apply saddr_unbroken|assumption]. }
    pose proof (read_all (lit "DESCRIBE"%string) (lit "rtsp://"%string ++ saddr_text v6 a ++ path) (lit "RTSP/1.0"%string)
              [field (lit "CSeq"%string) (lit "1"%string); field (lit "User-Agent"%string) (lit "ArrowClient/"%string ++ ver);
               field (lit "Accept"%string) (lit "application/sdp"%string)]) as R.
    rewrite <- R with (rest := rest); clear R; try (apply lit_out; reflexivity); try assumption.
    - unfold with_ends. cbn [map List.concat field_text field hf_name hf_value]. repeat rewrite <- app_assoc. reflexivity.
    - constructor; [|constructor; [|constructor; [|constructor]]]; eexists; (split; [reflexivity|]); cbn [hf_name field];
      (split; [apply lit_out; reflexivity|]); (split; [apply lit_visible; reflexivity|]); (split; [discriminate|]);
      (split; [try apply agent_visible; apply lit_visible; reflexivity|discriminate]).
  Qed.
End Probe.

(** ** Every request *)
Lemma http_request_line lc ver m s ignore r : http_request lc ver m s ignore = ROk r ->
  In (m, g_method (rq_inner r)) http_words /\ g_protocol (rq_inner r) = lit "HTTP"%string /\ g_version (rq_inner r) = lit "1.0"%string /\
  g_body (rq_inner r) = [] /\ rq_ignore r = ignore /\ rq_timeout r = Some 20000000000%Z.
Proof.
  unfold http_request. destruct (url_parse s) as [u| |]; try discriminate. cbn [rbind]. destruct (url_scheme u) as [sc| |]; try discriminate. cbn [rbind].
  destruct (http_scheme lc sc); try discriminate. destruct (url_host u); try discriminate. cbn [rbind]. destruct (url_path u); try discriminate. cbn [rbind].
  destruct (url_query u); try discriminate. cbn [rbind]. intros E. injection E as <-.
  cbn [new_request rq_inner g_set_field g_with_fields g_new g_method g_protocol g_version g_body rq_ignore rq_timeout].
  split; [destruct m; cbn [http_name]; unfold http_words; repeat (first [left; reflexivity|right])|auto 8].
Qed.
Lemma rtsp_request_line lc ver m s ignore r : rtsp_request lc ver m s ignore = ROk r ->
  In (m, g_method (rq_inner r)) rtsp_words /\ g_protocol (rq_inner r) = lit "RTSP"%string /\ g_version (rq_inner r) = lit "1.0"%string /\
  g_body (rq_inner r) = [] /\ rq_ignore r = ignore /\ rq_timeout r = Some 20000000000%Z.
Proof.
  unfold rtsp_request. destruct (url_parse s) as [u| |]; try discriminate. cbn [rbind]. destruct (url_scheme u) as [sc| |]; try discriminate. cbn [rbind].
  destruct (rtsp_scheme lc sc); try discriminate. destruct (url_host u); try discriminate. cbn [rbind]. intros E. injection E as <-.
  cbn [new_request rq_inner g_set_field g_with_fields g_new g_method g_protocol g_version g_body rq_ignore rq_timeout].
  split; [destruct m; cbn [rtsp_name]; unfold rtsp_words; repeat (first [left; reflexivity|right])|auto 8].
Qed.

(** ** No panic *)
Lemma http_request_total lc ver m s ignore : utf8_valid s = true -> http_request lc ver m s ignore <> RPanic.
Proof.
  intros H. unfold http_request. destruct (url_parse_total s H) as [(p & u & _ & _ & -> & A1 & _ & _ & A2 & A3 & A4 & A5 & _)|(-> & _)]; [|discriminate].
  cbn [rbind]. rewrite A1. cbn [rbind]. destruct (http_scheme lc (up_scheme p)); [|discriminate]. rewrite A2, A4, A5. discriminate.
Qed.
Lemma rtsp_request_total lc ver m s ignore : utf8_valid s = true -> rtsp_request lc ver m s ignore <> RPanic.
Proof.
  intros H. unfold rtsp_request. destruct (url_parse_total s H) as [(p & u & _ & _ & -> & A1 & _ & _ & A2 & A3 & A4 & A5 & _)|(-> & _)]; [|discriminate].
  cbn [rbind]. rewrite A1. cbn [rbind]. destruct (rtsp_scheme lc (up_scheme p)); [|discriminate]. rewrite A2. discriminate.
Qed.

Lemma probe_text_valid v6 scheme a path : v6_ok v6 -> Forall (fun b => b < 128) scheme -> utf8_valid path = true ->
  utf8_valid (scheme ++ saddr_text v6 a ++ path) = true.
Proof. intros H1 H2 H3. rewrite ascii_app, ascii_app; auto. now apply saddr_ascii. Qed.

(** No probe hangs; a probe panics only if the response makes the codec panic. *)
Lemma send_cases lc bits codec net r : rq_timeout r <> None ->
  send lc bits codec net r <> SNever /\
  (send lc bits codec net r = SPanic -> exists pieces closed,
     net (rq_host r) (rq_port r) (encode (rq_inner r)) = Answered pieces closed /\
     receive lc bits (codec (rq_max_line r) (rq_max_lines r) (rq_ignore r)) pieces closed = Panic).
Proof.
  intros T. unfold send. destruct (net (rq_host r) (rq_port r) (encode (rq_inner r))) as [|pieces closed]; [split; discriminate|].
  destruct (receive lc bits (codec (rq_max_line r) (rq_max_lines r) (rq_ignore r)) pieces closed) eqn:E.
  - split; discriminate.
  - destruct (rq_timeout r); [split; discriminate|congruence].
  - split; discriminate.
  - split; discriminate.
  - split; [discriminate|eauto].
Qed.
Lemma header_outcome lc ver bits v6 net t a path : v6_ok v6 -> utf8_valid path = true ->
  probe_header lc ver bits v6 net t a path <> SNever /\
  (probe_header lc ver bits v6 net t a path = SPanic -> exists host port request pieces closed,
     net host port request = Answered pieces closed /\ receive lc bits (http lc bits 4096 1024 true) pieces closed = Panic).
Proof.
  intros H1 H2. unfold probe_header, http_probe, http_get_header.
  assert (V : utf8_valid (lit "http://"%string ++ saddr_text v6 a ++ path) = true) by (apply probe_text_valid; auto; now apply ascii_lit).
  destruct (http_request lc ver HGET (lit "http://"%string ++ saddr_text v6 a ++ path) true) as [r| |] eqn:E; cbn [rbind sent_to].
  - destruct (send_cases lc bits (http lc bits) net (with_timeout (Some t) r)) as [A B]; [discriminate|]. split; [exact A|].
    intros X. destruct (B X) as (p & c & N & R). exists (rq_host r), (rq_port r), (encode (rq_inner r)), p, c. split; [exact N|].
    assert (S : rq_max_line r = 4096 /\ rq_max_lines r = 1024 /\ rq_ignore r = true).
    { unfold http_request in E. destruct (url_parse _) as [u| |]; try discriminate. cbn [rbind] in E. destruct (url_scheme u); try discriminate.
      cbn [rbind] in E. destruct (http_scheme lc a0); [|discriminate]. destruct (url_host u); try discriminate. cbn [rbind] in E.
      destruct (url_path u); try discriminate. cbn [rbind] in E. destruct (url_query u); try discriminate. cbn [rbind] in E. injection E as <-. auto. }
    destruct S as (S1 & S2 & S3). cbn [with_timeout rq_max_line rq_max_lines rq_ignore] in R. now rewrite S1, S2, S3 in R.
  - split; discriminate.
  - exfalso. now apply http_request_total in E.
Qed.
Lemma rtsp_settings lc ver m s ignore r : rtsp_request lc ver m s ignore = ROk r -> rq_max_line r = 4096 /\ rq_max_lines r = 1024 /\ rq_ignore r = ignore.
Proof.
  unfold rtsp_request. intros E. destruct (url_parse _) as [u| |]; try discriminate. cbn [rbind] in E. destruct (url_scheme u); try discriminate.
  cbn [rbind] in E. destruct (rtsp_scheme lc a); [|discriminate]. destruct (url_host u); try discriminate. cbn [rbind] in E. injection E as <-. auto.
Qed.
Lemma options_outcome lc ver bits v6 net t a : v6_ok v6 ->
  probe_options lc ver bits v6 net t a <> SNever /\
  (probe_options lc ver bits v6 net t a = SPanic -> exists host port request pieces closed,
     net host port request = Answered pieces closed /\ receive lc bits (rtsp lc bits 4096 1024 true) pieces closed = Panic).
Proof.
  intros H1. unfold probe_options, rtsp_probe, rtsp_options.
  assert (V : utf8_valid (lit "rtsp://"%string ++ saddr_text v6 a ++ [47]) = true) by (apply probe_text_valid; auto; now apply ascii_lit).
  destruct (rtsp_request lc ver ROPTIONS (lit "rtsp://"%string ++ saddr_text v6 a ++ [47]) true) as [r| |] eqn:E; cbn [rbind sent_to].
  - destruct (send_cases lc bits (rtsp lc bits) net (with_timeout (Some t) r)) as [A B]; [discriminate|]. split; [exact A|].
    intros X. destruct (B X) as (p & c & N & R). exists (rq_host r), (rq_port r), (encode (rq_inner r)), p, c. split; [exact N|].
    destruct (rtsp_settings _ _ _ _ _ _ E) as (S1 & S2 & S3). cbn [with_timeout rq_max_line rq_max_lines rq_ignore] in R. now rewrite S1, S2, S3 in R.
  - split; discriminate.
  - exfalso. now apply rtsp_request_total in E.
Qed.
Lemma describe_outcome lc ver bits v6 net t a path : v6_ok v6 -> utf8_valid path = true ->
  probe_describe lc ver bits v6 net t a path <> SNever /\
  (probe_describe lc ver bits v6 net t a path = SPanic -> exists host port request pieces closed,
     net host port request = Answered pieces closed /\ receive lc bits (rtsp lc bits 4096 1024 false) pieces closed = Panic).
Proof.
  intros H1 H2. unfold probe_describe, describe_probe, rtsp_describe.
  assert (V : utf8_valid (lit "rtsp://"%string ++ saddr_text v6 a ++ path) = true) by (apply probe_text_valid; auto; now apply ascii_lit).
  destruct (rtsp_request lc ver RDESCRIBE (lit "rtsp://"%string ++ saddr_text v6 a ++ path) false) as [r| |] eqn:E; cbn [rbind sent_to].
  - match goal with |- send _ _ _ _ ?q <> _ /\ _ => destruct (send_cases lc bits (rtsp lc bits) net q) as [A B]; [discriminate|]; split; [exact A|] end.
    intros X. destruct (B X) as (p & c & N & R). do 5 eexists. split; [exact N|].
    destruct (rtsp_settings _ _ _ _ _ _ E) as (S1 & S2 & S3). cbn [with_timeout with_inner rq_max_line rq_max_lines rq_ignore] in R. now rewrite S1, S2, S3 in R.
  - split; discriminate.
  - exfalso. now apply rtsp_request_total in E.
Qed.

(** Every request ends, also those for which no other timeout is set. *)
Lemma http_default lc ver m s ignore r : http_request lc ver m s ignore = ROk r -> rq_timeout r = Some 20000000000%Z.
Proof.
  unfold http_request. intros E. destruct (url_parse _) as [u| |]; try discriminate. cbn [rbind] in E. destruct (url_scheme u); try discriminate.
  cbn [rbind] in E. destruct (http_scheme lc a); [|discriminate]. destruct (url_host u); try discriminate. cbn [rbind] in E.
  destruct (url_path u); try discriminate. cbn [rbind] in E. destruct (url_query u); try discriminate. cbn [rbind] in E. injection E as <-. reflexivity.
Qed.
Lemma rtsp_default lc ver m s ignore r : rtsp_request lc ver m s ignore = ROk r -> rq_timeout r = Some 20000000000%Z.
Proof.
  unfold rtsp_request. intros E. destruct (url_parse _) as [u| |]; try discriminate. cbn [rbind] in E. destruct (url_scheme u); try discriminate.
  cbn [rbind] in E. destruct (rtsp_scheme lc a); [|discriminate]. destruct (url_host u); try discriminate. cbn [rbind] in E. injection E as <-. reflexivity.
Qed.
Lemma request_ends lc ver bits net text ignore r :
  ((exists m, http_request lc ver m text ignore = ROk r) -> rq_timeout r = Some 20000000000%Z /\ send lc bits (http lc bits) net r <> SNever) /\
  ((exists m, rtsp_request lc ver m text ignore = ROk r) -> rq_timeout r = Some 20000000000%Z /\ send lc bits (rtsp lc bits) net r <> SNever).
Proof.
  split; intros [m E].
  - apply http_default in E. split; [exact E|]. apply (send_cases lc bits (http lc bits) net r). congruence.
  - apply rtsp_default in E. split; [exact E|]. apply (send_cases lc bits (rtsp lc bits) net r). congruence.
Qed.

Lemma built_fields lc os : forall g fs, g_fields g = fields_of lc fs ->
  let r := fold_left (build lc) os g in
  g_fields r = fields_of lc (fs ++ field_steps os) /\ g_protocol r = g_protocol g /\ g_method r = g_method g /\ g_path r = g_path g /\
  g_version r = fold_left (fun x o => match o with GVersion v => v | _ => x end) os (g_version g) /\
  g_body r = fold_left (fun x o => match o with GBody b => b | _ => x end) os (g_body g).
Proof.
  induction os as [|o os IH]; intros g fs E; cbn [fold_left].
  - cbn [field_steps flat_map]. rewrite app_nil_r. auto 10.
  - assert (E2 : g_fields (build lc g o) = fields_of lc (fs ++ field_steps [o])).
    { destruct o; cbn [build g_set_field g_add_field g_with_fields g_set_body g_set_version g_fields field_steps flat_map app]; rewrite ?app_nil_r; try exact E;
        unfold fields_of; rewrite fold_left_app; cbn [fold_left fop_apply]; fold (fields_of lc fs); rewrite <- E; reflexivity. }
    destruct (IH _ _ E2) as (F1 & F2 & F3 & F4 & F5 & F6). rewrite F1, F2, F3, F4, F5, F6. rewrite <- app_assoc.
    split; [unfold field_steps; now rewrite <- flat_map_app|]. now destruct o.
Qed.
Lemma built_text lc protocol version method path os :
  encode (fold_left (build lc) os (g_new protocol version method path)) =
  with_ends ((method ++ [32] ++ path ++ [32] ++ protocol ++ [47] ++ last_version version os) :: map field_text (listed lc (field_steps os))) ++ [13; 10] ++ last_body os.
Proof.
  destruct (built_fields lc os (g_new protocol version method path) [] eq_refl) as (F1 & F2 & F3 & F4 & F5 & F6). rewrite app_nil_l in F1.
  unfold encode. rewrite F1, F2, F3, F4, F5, F6. cbn [g_new g_protocol g_method g_path g_version g_body].
  rewrite request_rendered. now rewrite <- app_assoc.
Qed.
