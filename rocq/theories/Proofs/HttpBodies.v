(** Bodies of responses. *)
From Coq Require Import NArith List Bool Lia.
From Coq Require Import ZArith ZifyBool ZifyNat ZifyN.
From Verif.Model Require Import Bytes Utf8 Text Http.
From Verif.Spec Require Import HttpSpec.
From Verif.Proofs Require Import BytesFacts TextProofs TableJsonPf HttpLines HttpLaws HttpExact.
Import ListNotations.
Local Open Scope N_scope.

(** ** Fixed length *)
Lemma fixed_exact ignore n data :
  fixed_decode ignore {| fd_body := Some []; fd_expected := n |} data =
  (if n <=? nlen data
   then Item (if ignore then [] else firstn (N.to_nat n) data) {| fd_body := None; fd_expected := 0 |} (skipn (N.to_nat n) data)
   else More {| fd_body := Some (if ignore then [] else data); fd_expected := n - nlen data |} []).
Proof.
  unfold fixed_decode. cbn [fd_body fd_expected]. destruct (N.leb_spec n (nlen data)) as [L|L].
  - assert (T : (if n <? nlen data then n else nlen data) = n) by (destruct (N.ltb_spec n (nlen data)); lia). rewrite T.
    rewrite N.sub_diag. change (0 <? 0) with false. cbn iota. now destruct ignore.
  - assert (T : (if n <? nlen data then n else nlen data) = nlen data) by (destruct (N.ltb_spec n (nlen data)); lia). rewrite T.
    destruct (N.ltb_spec 0 (n - nlen data)); [|lia]. rewrite skipn_nlen, firstn_nlen. now destruct ignore.
Qed.
Lemma fixed_reading ignore n pieces : pieces <> [] \/ 0 < n ->
  reading (feed (fixed_decode ignore) {| fd_body := Some []; fd_expected := n |} [] pieces) =
  let data := concat pieces in
  if n <=? nlen data
  then Item (if ignore then [] else firstn (N.to_nat n) data) {| fd_body := None; fd_expected := 0 |} (skipn (N.to_nat n) data)
  else More {| fd_body := Some (if ignore then [] else data); fd_expected := n - nlen data |} [].
Proof.
  intros H. cbv zeta. rewrite <- fixed_exact. apply (feed_law finv).
  - apply fixed_law.
  - discriminate.
  - destruct H as [H|H]; [now right|left]. rewrite fixed_exact. change (nlen []) with 0. destruct (N.leb_spec n 0); [lia|]. rewrite N.sub_0_r. now destruct ignore.
Qed.
Lemma fixed_once ignore data : fixed_decode ignore {| fd_body := None; fd_expected := 0 |} data = Fail.
Proof. unfold fixed_decode. cbn [fd_body fd_expected]. destruct (N.ltb_spec 0 (nlen data)); reflexivity || now replace (nlen data) with 0 by lia. Qed.

(** ** Chunked *)
Section Chunks.
Variables bits maxlen : N.

Lemma read_size size ext : Forall (fun b => b <> 59) size -> (ext = [] \/ exists e, ext = 59 :: e) -> fst (read_until 59 (size ++ ext)) = size.
Proof.
  induction 1 as [|b size Hb Hs IH]; intros E.
  - destruct E as [->|(e & ->)]; reflexivity.
  - cbn [app read_until]. destruct (N.eqb_spec b 59); [contradiction|]. specialize (IH E). destruct (read_until 59 (size ++ ext)). cbn [fst] in *. now subst.
Qed.
Lemma hex_chars size : forall acc n, digits_val 16 size acc = Some n -> Forall (fun b => b <> 59 /\ b <> 43) size.
Proof.
  induction size as [|b size IH]; intros acc n H; [constructor|]. cbn [digits_val] in H. destruct (digit_val 16 b) as [d|] eqn:E; [|discriminate].
  constructor; [|exact (IH _ _ H)]. split; intros ->; vm_compute in E; discriminate.
Qed.
Lemma parse_hex size n : hexadecimal size n -> n < 2 ^ bits -> parse_uint 16 (usize_max bits) size = Some n.
Proof.
  intros [Hne Hd] Hn. destruct size as [|b size]; [congruence|].
  assert (Hb : b <> 43). { pose proof (hex_chars _ _ _ Hd) as F. inversion F; tauto. }
  rewrite (parse_uint_plain _ _ _ _ Hb), Hd. destruct (N.leb_spec n (usize_max bits)); [reflexivity|unfold usize_max in *; lia].
Qed.

Definition at_header (body : bytes) (e : N) : cdec := {| cd_state := CHeader; cd_buf := []; cd_body := body; cd_expected := e |}.

Lemma loop_step fuel ignore s data : data <> [] ->
  chunked_loop bits (S fuel) maxlen ignore s data =
  match chunked_step bits maxlen ignore s data with More s' rest => chunked_loop bits fuel maxlen ignore s' rest | o => o end.
Proof. destruct data; [congruence|reflexivity]. Qed.

Lemma step_header ignore body e size ext n r : hexadecimal size n -> n < 2 ^ bits -> chunk_head maxlen size ext ->
  chunked_step bits maxlen ignore (at_header body e) ((size ++ ext) ++ [13; 10] ++ r) =
  More {| cd_state := if 0 <? n then CBody else CTrailer; cd_buf := []; cd_body := body; cd_expected := n |} r.
Proof.
  intros Hx Hn [He Hg]. unfold chunked_step, at_header. cbn [cd_state cd_buf cd_body cd_expected]. rewrite (line_good _ _ r Hg).
  rewrite read_size; [|eapply Forall_impl; [|exact (hex_chars _ _ _ (proj2 Hx))]; tauto|exact He].
  now rewrite (parse_hex size n Hx Hn).
Qed.
Lemma step_body ignore body data r : data <> [] ->
  chunked_step bits maxlen ignore {| cd_state := CBody; cd_buf := []; cd_body := body; cd_expected := nlen data |} (data ++ r) =
  More {| cd_state := CDelimiter; cd_buf := []; cd_body := if ignore then body else body ++ data; cd_expected := 0 |} r.
Proof.
  intros Hd. unfold chunked_step. cbn [cd_state cd_buf cd_body cd_expected].
  assert (T : (if nlen data <? nlen (data ++ r) then nlen data else nlen (data ++ r)) = nlen data).
  { unfold nlen. rewrite app_length. destruct (N.ltb_spec (N.of_nat (length data)) (N.of_nat (length data + length r))); lia. }
  rewrite T, N.sub_diag. change (0 =? 0) with true. cbn iota. unfold nlen. rewrite Nat2N.id, firstn_app, skipn_app, firstn_all, skipn_all, Nat.sub_diag.
  cbn [firstn skipn app]. now rewrite app_nil_r.
Qed.
Lemma step_delimiter ignore body r : good_line maxlen [] ->
  chunked_step bits maxlen ignore {| cd_state := CDelimiter; cd_buf := []; cd_body := body; cd_expected := 0 |} ([13; 10] ++ r) = More (at_header body 0) r.
Proof.
  intros G. unfold chunked_step. cbn [cd_state cd_buf cd_body cd_expected]. pose proof (line_good _ [] r G) as E. rewrite app_nil_l in E. now rewrite E.
Qed.
Lemma trailer_run ls : forall fuel s rest, cd_buf s = [] -> Forall (good_line maxlen) ls -> Forall (fun l => l <> []) ls -> good_line maxlen [] ->
  (length (with_ends ls ++ crlf ++ rest) < fuel)%nat ->
  trailer_loop fuel maxlen s (with_ends ls ++ [13; 10] ++ rest) =
  Item (cd_body s) {| cd_state := CCompleted; cd_buf := []; cd_body := []; cd_expected := cd_expected s |} rest.
Proof.
  induction ls as [|l ls IH]; intros fuel s rest Es G NE G0 Hf.
  - change (with_ends []) with (@nil N) in *. rewrite app_nil_l in *. destruct fuel as [|fuel]; [lia|]. cbn [trailer_loop]. rewrite Es.
    pose proof (line_good _ [] rest G0) as E. rewrite app_nil_l in E. now rewrite E.
  - rewrite with_ends_cons in *. destruct fuel as [|fuel]; [lia|]. inversion G as [|? ? G1 G2]; subst. inversion NE as [|? ? N1 N2]; subst.
    cbn [trailer_loop]. rewrite Es, (line_good _ l _ G1). destruct l as [|b l]; [congruence|].
    rewrite IH; try assumption; [reflexivity|reflexivity|]. unfold crlf in *. rewrite !app_length in *. cbn [length] in *. lia.
Qed.

Lemma good_empty l : good_line maxlen l -> good_line maxlen [].
Proof. intros (_ & G & _). split; [reflexivity|]. split; [cbn; lia|reflexivity]. Qed.
Lemma crlf_more r : [13; 10] ++ r <> [].
Proof. discriminate. Qed.
Lemma app_more {A} (a b : list A) : b <> [] -> a ++ b <> [].
Proof. destruct a; [auto|discriminate]. Qed.

Lemma chunked_run ignore zero ext trailer rest : hexadecimal zero 0 -> chunk_head maxlen zero ext ->
  Forall (good_line maxlen) trailer -> Forall (fun l => l <> []) trailer ->
  forall cs, Forall (good_chunk bits maxlen) cs -> forall fuel body e,
  (length (chunked_bytes cs zero ext trailer ++ rest) <= fuel)%nat ->
  chunked_loop bits fuel maxlen ignore (at_header body e) (chunked_bytes cs zero ext trailer ++ rest) =
  Item (if ignore then body else body ++ concat (map ck_data cs)) {| cd_state := CCompleted; cd_buf := []; cd_body := []; cd_expected := 0 |} rest.
Proof.
  intros Hz Hh Gt Nt. assert (G0 : good_line maxlen []) by (destruct Hh as [_ Hh]; exact (good_empty _ Hh)).
  induction cs as [|c cs IH]; intros Gc fuel body e Hf.
  - assert (Es : chunked_bytes [] zero ext trailer ++ rest = (zero ++ ext) ++ [13; 10] ++ with_ends trailer ++ [13; 10] ++ rest).
    { unfold chunked_bytes. cbn [map concat]. rewrite app_nil_l. now rewrite <- !app_assoc. }
    rewrite Es in *. assert (L : (4 <= length ((zero ++ ext) ++ crlf ++ with_ends trailer ++ crlf ++ rest))%nat).
    { unfold crlf. rewrite !app_length. cbn [length]. lia. }
    unfold crlf in L. destruct fuel as [|[|fuel]]; [lia|lia|]. rewrite loop_step by (repeat (apply crlf_more || apply app_more)).
    rewrite (step_header ignore body e zero ext 0 _ Hz); [|assert (2 ^ bits <> 0) by (apply N.pow_nonzero; discriminate); lia|exact Hh]. change (0 <? 0) with false. cbn iota.
    rewrite loop_step by (repeat (apply crlf_more || apply app_more)). unfold chunked_step. cbn [cd_state].
    rewrite trailer_run; [|reflexivity|assumption|assumption|assumption|unfold crlf; lia]. cbn [cd_body cd_expected map concat]. rewrite app_nil_r. now destruct ignore.
  - inversion Gc as [|? ? G1 G2]; subst. destruct G1 as (Hx & Hd & Hn & Hc).
    assert (Es : chunked_bytes (c :: cs) zero ext trailer ++ rest =
      (ck_size c ++ ck_ext c) ++ [13; 10] ++ ck_data c ++ [13; 10] ++ chunked_bytes cs zero ext trailer ++ rest).
    { unfold chunked_bytes, chunk_bytes. cbn [map concat]. now rewrite <- !app_assoc. }
    rewrite Es in *. remember (chunked_bytes cs zero ext trailer ++ rest) as more eqn:Em.
    assert (L : (length more + 4 <= length ((ck_size c ++ ck_ext c) ++ crlf ++ ck_data c ++ crlf ++ more))%nat).
    { unfold crlf. rewrite !app_length. cbn [length]. lia. }
    unfold crlf in L. destruct fuel as [|[|[|fuel]]]; [lia|lia|lia|].
    rewrite loop_step by (repeat (apply crlf_more || apply app_more)). rewrite (step_header ignore body e _ _ _ _ Hx Hn Hc).
    assert (P : 0 <? nlen (ck_data c) = true). { destruct (ck_data c); [congruence|]. apply N.ltb_lt. unfold nlen. cbn [length]. lia. }
    rewrite P. rewrite loop_step by (repeat (apply crlf_more || apply app_more)). rewrite (step_body ignore body (ck_data c) _ Hd).
    rewrite loop_step by apply crlf_more. rewrite (step_delimiter ignore _ _ G0). rewrite (IH G2) by lia.
    cbn [map concat]. rewrite app_assoc. now destruct ignore.
Qed.
Lemma chunked_reading ignore cs zero ext trailer rest pieces : hexadecimal zero 0 -> chunk_head maxlen zero ext ->
  Forall (good_line maxlen) trailer -> Forall (fun l => l <> []) trailer -> Forall (good_chunk bits maxlen) cs ->
  concat pieces = chunked_bytes cs zero ext trailer ++ rest ->
  reading (feed (chunked_decode bits maxlen ignore) chunked_new [] pieces) =
  Item (if ignore then [] else concat (map ck_data cs)) {| cd_state := CCompleted; cd_buf := []; cd_body := []; cd_expected := 0 |} rest.
Proof.
  intros Hz Hh Gt Nt Gc E. assert (Hm : 0 < maxlen) by (destruct Hh as [_ Hh]; exact (good_pos _ _ Hh)).
  assert (I : cinv maxlen chunked_new). { split; [now apply buf_nil|discriminate]. }
  rewrite (feed_law (cinv maxlen)); [|apply chunked_law; exact Hm|exact I|now left].
  rewrite E. unfold chunked_decode. exact (chunked_run ignore zero ext trailer rest Hz Hh Gt Nt cs Gc _ [] 0 (Nat.le_succ_diag_r _)).
Qed.
End Chunks.
