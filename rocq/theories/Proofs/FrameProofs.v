From Coq Require Import NArith ZArith List Bool Lia ZifyBool ZifyNat ZifyN.
From Verif.Model Require Import Bytes Frame.
From Verif.Spec Require Import FrameSpec.
From Verif.Proofs Require Import BytesFacts.
Import ListNotations.
Local Open Scope N_scope.
Ltac Zify.zify_post_hook ::= Z.div_mod_to_equations.

(** ** Header *)
Lemma header_encode_length h : length (header_encode h) = HSIZE.
Proof. unfold header_encode. rewrite !app_length, !to_be_length. reflexivity. Qed.

Lemma header_roundtrip h :
  h_version h = 2 -> h_service h < 2 ^ 16 -> h_session h < 2 ^ 24 -> h_size h < 2 ^ 32 ->
  header_from_bytes (header_encode h) = ROk h.
Proof.
  intros Hv Hs Hse Hz. unfold header_from_bytes.
  rewrite header_encode_length, Nat.eqb_refl. cbn [negb].
  unfold header_encode.
  rewrite (field_app_here (to_be 1 _)) by (rewrite to_be_length; reflexivity).
  rewrite (field_app_skip (to_be 1 _)) by (rewrite to_be_length; lia).
  rewrite to_be_length. change (1 - 1)%nat with O.
  rewrite (field_app_here (to_be 2 _)) by (rewrite to_be_length; reflexivity).
  rewrite (field_app_skip (to_be 1 _) _ 3) by (rewrite to_be_length; lia).
  rewrite to_be_length. change (3 - 1)%nat with 2%nat.
  rewrite (field_app_skip (to_be 2 _) _ 2) by (rewrite to_be_length; lia).
  rewrite to_be_length. change (2 - 2)%nat with O.
  rewrite (field_app_here (to_be 4 _)) by (rewrite to_be_length; reflexivity).
  rewrite (field_app_skip (to_be 1 _) _ 7) by (rewrite to_be_length; lia).
  rewrite to_be_length. change (7 - 1)%nat with 6%nat.
  rewrite (field_app_skip (to_be 2 _) _ 6) by (rewrite to_be_length; lia).
  rewrite to_be_length. change (6 - 2)%nat with 4%nat.
  rewrite (field_app_skip (to_be 4 _) _ 4) by (rewrite to_be_length; lia).
  rewrite to_be_length. change (4 - 4)%nat with O.
  rewrite <- (to_be_length 4 (h_size h)) at 1. rewrite field_all.
  rewrite (of_be_to_be_small 1 (h_version h)) by (rewrite Hv; reflexivity).
  rewrite (of_be_to_be_small 2 (h_service h)) by exact Hs.
  rewrite (of_be_to_be_small 4 (h_session h))
    by (change (256 ^ N.of_nat 4) with 4294967296; change (2 ^ 24) with 16777216 in Hse; lia).
  rewrite (of_be_to_be_small 4 (h_size h)) by exact Hz.
  cbn [h_version]. rewrite Hv. cbn. rewrite land_mask24, (N.mod_small (h_session h)) by exact Hse.
  destruct h; cbn in *; subst; reflexivity.
Qed.

(** ** Characterisation of the decoder on arbitrary well-formed buffers *)
Lemma of_be_2 a b : of_be [a; b] = a * 256 + b.
Proof. unfold of_be; cbn [fold_left]. lia. Qed.
Lemma of_be_4 a b c d : of_be [a; b; c; d] = a * 16777216 + b * 65536 + c * 256 + d.
Proof. unfold of_be; cbn [fold_left]. lia. Qed.

Lemma decode_short buf : (length buf < 11)%nat -> amsg_decode buf = DMore.
Proof. intros H. unfold amsg_decode, HSIZE. apply Nat.ltb_lt in H. rewrite H. reflexivity. Qed.

Lemma decode_eq_reading buf : wf_bytes buf -> amsg_decode buf = frame_reading buf.
Proof.
  intros Hwf.
  do 11 (destruct buf as [|? buf]; [reflexivity|]).
  unfold amsg_decode. cbn [length Nat.ltb Nat.leb HSIZE firstn].
  unfold header_from_bytes. cbn [length Nat.eqb HSIZE negb].
  unfold field. cbn [firstn skipn]. cbn [h_version h_service h_session h_size frame_reading].
  rewrite !of_be_4, of_be_2.
  change (of_be [n]) with (0 * 256 + n). rewrite N.mul_0_l, N.add_0_l.
  change ARROW_PROTOCOL_VERSION with 2.
  destruct (N.eqb n 2) eqn:Ev; [|reflexivity].
  set (size := n6 * 16777216 + n7 * 65536 + n8 * 256 + n9).
  cbn [h_version h_service h_session h_size].
  set (hd := [n; n0; n1; n2; n3; n4; n5; n6; n7; n8; n9]).
  change (n :: n0 :: n1 :: n2 :: n3 :: n4 :: n5 :: n6 :: n7 :: n8 :: n9 :: buf) with (hd ++ buf).
  rewrite nlen_app. change (nlen hd) with 11. change (N.of_nat HSIZE) with 11. unfold HSIZE.
  replace (N.ltb (11 + nlen buf) (size + 11)) with (N.ltb (nlen buf) size) by lia.
  destruct (N.ltb (nlen buf) size); [reflexivity|].
  rewrite (Nat.add_comm (N.to_nat size) 11).
  cbn [Nat.add firstn skipn app hd].
  f_equal. f_equal.
  rewrite land_mask24.
  inversion Hwf as [|? ? H0 Hwf1]; subst. inversion Hwf1 as [|? ? H1 Hwf2]; subst.
  inversion Hwf2 as [|? ? H2 Hwf3]; subst. inversion Hwf3 as [|? ? H3 Hwf4]; subst.
  inversion Hwf4 as [|? ? H4 Hwf5]; subst. inversion Hwf5 as [|? ? H5 Hwf6]; subst.
  inversion Hwf6 as [|? ? H6 Hwf7]; subst.
  change (2 ^ 24) with 16777216. clear size. lia.
Qed.

Lemma decode_no_panic buf : amsg_decode buf <> DPanic.
Proof.
  unfold amsg_decode. destruct (Nat.ltb (length buf) HSIZE) eqn:E; [discriminate|].
  apply Nat.ltb_ge in E. unfold header_from_bytes.
  rewrite firstn_length, Nat.min_l, Nat.eqb_refl by exact E. cbn [negb h_version].
  destruct (N.eqb _ _); [|discriminate]. destruct (N.ltb _ _); discriminate.
Qed.

(** ** Prefix monotonicity *)
Lemma firstn_app_le {A} n (a b : list A) : (n <= length a)%nat -> firstn n (a ++ b) = firstn n a.
Proof.
  intros H. rewrite firstn_app. replace (n - length a)%nat with O by lia. cbn [firstn]. apply app_nil_r.
Qed.
Lemma skipn_app_le {A} n (a b : list A) : (n <= length a)%nat -> skipn n (a ++ b) = skipn n a ++ b.
Proof. intros H. rewrite skipn_app. replace (n - length a)%nat with O by lia. reflexivity. Qed.

Lemma decode_app buf x m rest :
  amsg_decode buf = DMsg m rest -> amsg_decode (buf ++ x) = DMsg m (rest ++ x).
Proof.
  unfold amsg_decode. rewrite app_length.
  destruct (Nat.ltb (length buf) HSIZE) eqn:E; [discriminate|]. apply Nat.ltb_ge in E.
  replace (Nat.ltb (length buf + length x) HSIZE) with false by (symmetry; apply Nat.ltb_ge; lia).
  rewrite (firstn_app_le HSIZE buf x) by exact E.
  destruct (header_from_bytes (firstn HSIZE buf)) as [h| |]; try discriminate.
  destruct (N.ltb (nlen buf) (h_size h + N.of_nat HSIZE)) eqn:El; [discriminate|].
  apply N.ltb_ge in El. rewrite nlen_app.
  replace (N.ltb (nlen buf + nlen x) (h_size h + N.of_nat HSIZE)) with false by lia.
  assert (Hle : (N.to_nat (h_size h) + HSIZE <= length buf)%nat) by (unfold nlen in El; lia).
  rewrite (firstn_app_le _ buf x) by exact Hle. rewrite (skipn_app_le _ buf x) by exact Hle.
  intros H; inversion H; subst. reflexivity.
Qed.

Lemma decode_err_app buf x : amsg_decode buf = DErr -> amsg_decode (buf ++ x) = DErr.
Proof.
  unfold amsg_decode. rewrite app_length.
  destruct (Nat.ltb (length buf) HSIZE) eqn:E; [discriminate|]. apply Nat.ltb_ge in E.
  replace (Nat.ltb (length buf + length x) HSIZE) with false by (symmetry; apply Nat.ltb_ge; lia).
  rewrite (firstn_app_le HSIZE buf x) by exact E.
  destruct (header_from_bytes (firstn HSIZE buf)) as [h| |]; try discriminate; [|reflexivity].
  destruct (N.ltb _ _); discriminate.
Qed.

Lemma decode_consumes buf m rest :
  amsg_decode buf = DMsg m rest -> (length rest < length buf)%nat.
Proof.
  unfold amsg_decode. destruct (Nat.ltb (length buf) HSIZE) eqn:E; [discriminate|]. apply Nat.ltb_ge in E.
  destruct (header_from_bytes (firstn HSIZE buf)) as [h| |]; try discriminate.
  destruct (N.ltb (nlen buf) (h_size h + N.of_nat HSIZE)) eqn:El; [discriminate|]. apply N.ltb_ge in El.
  intros H; inversion H; subst. rewrite skipn_length. unfold nlen, HSIZE in *. lia.
Qed.

(** ** The reader loop *)
Lemma drain_fuel f1 f2 buf :
  (length buf < f1)%nat -> (length buf < f2)%nat -> drain f1 buf = drain f2 buf.
Proof.
  revert f2 buf; induction f1 as [|f1 IH]; intros f2 buf H1 H2; [lia|].
  destruct f2 as [|f2]; [lia|]. cbn [drain].
  destruct (amsg_decode buf) as [| | |m rest] eqn:E; try reflexivity.
  apply decode_consumes in E. rewrite (IH f2 rest) by lia. reflexivity.
Qed.

Definition drained (buf : bytes) : list amsg * reader := drain (S (length buf)) buf.

Lemma drained_eq buf :
  drained buf =
  match amsg_decode buf with
  | DMore => ([], {| rd_buf := buf; rd_status := RSOpen |})
  | DErr => ([], {| rd_buf := buf; rd_status := RSFailed |})
  | DPanic => ([], {| rd_buf := buf; rd_status := RSPanicked |})
  | DMsg m rest => let '(ms, r) := drained rest in (m :: ms, r)
  end.
Proof.
  unfold drained at 1. cbn [drain].
  destruct (amsg_decode buf) as [| | |m rest] eqn:E; try reflexivity.
  apply decode_consumes in E. unfold drained. rewrite (drain_fuel (length buf) (S (length rest))) by lia.
  reflexivity.
Qed.

Lemma bytes_len_ind (P : bytes -> Prop) :
  (forall b, (forall c, (length c < length b)%nat -> P c) -> P b) -> forall b, P b.
Proof.
  intros H b. remember (length b) as n eqn:En. revert b En.
  induction n as [n IH] using lt_wf_ind. intros b ->. apply H. intros c Hc. eapply IH; [exact Hc|reflexivity].
Qed.

Lemma drained_status buf :
  let '(_, r) := drained buf in
  (rd_status r = RSOpen /\ amsg_decode (rd_buf r) = DMore) \/
  (rd_status r = RSFailed /\ amsg_decode (rd_buf r) = DErr).
Proof.
  revert buf; apply bytes_len_ind; intros buf IH. rewrite drained_eq.
  destruct (amsg_decode buf) as [| | |m rest] eqn:E.
  - left; cbn; auto.
  - right; cbn; auto.
  - exfalso; exact (decode_no_panic buf E).
  - specialize (IH rest (decode_consumes _ _ _ E)).
    destruct (drained rest) as [ms r]. exact IH.
Qed.

Lemma drained_app buf x :
  drained (buf ++ x) =
  let '(ms, r) := drained buf in
  match rd_status r with
  | RSOpen => let '(ms', r') := drained (rd_buf r ++ x) in (ms ++ ms', r')
  | st => (ms, {| rd_buf := rd_buf r ++ x; rd_status := st |})
  end.
Proof.
  revert buf; apply bytes_len_ind; intros buf IH.
  rewrite (drained_eq buf). destruct (amsg_decode buf) as [| | |m rest] eqn:E.
  - cbn [rd_status rd_buf app]. destruct (drained (buf ++ x)). reflexivity.
  - cbn [rd_status rd_buf]. rewrite drained_eq, (decode_err_app buf x E). reflexivity.
  - exfalso; exact (decode_no_panic buf E).
  - rewrite drained_eq, (decode_app buf x m rest E), (IH rest (decode_consumes _ _ _ E)).
    destruct (drained rest) as [ms r]. destruct (rd_status r); try reflexivity.
    destruct (drained (rd_buf r ++ x)) as [ms' r']. reflexivity.
Qed.

(** A reader state between two chunks: either failed, or open and waiting for more. *)
Definition settled (r : reader) : Prop :=
  (rd_status r = RSOpen /\ amsg_decode (rd_buf r) = DMore) \/ rd_status r = RSFailed.

Lemma feed_settled r c : settled r -> settled (snd (feed r c)).
Proof.
  intros [[Hs _]|Hs]; unfold feed; rewrite Hs.
  - fold (drained (rd_buf r ++ c)). pose proof (drained_status (rd_buf r ++ c)) as H.
    destruct (drained (rd_buf r ++ c)) as [ms r']. cbn [snd].
    destruct H as [H|[H _]]; [left; exact H|right; exact H].
  - right; reflexivity.
Qed.

Lemma feed_all_concat chunks r :
  settled r -> feed_all r chunks = feed r (concat chunks).
Proof.
  revert r; induction chunks as [|c cs IH]; intros r Hr; cbn [feed_all concat].
  - destruct Hr as [[Hs Hd]|Hs]; unfold feed; rewrite Hs, app_nil_r.
    + fold (drained (rd_buf r)). rewrite drained_eq, Hd. destruct r; cbn in *; subst; reflexivity.
    + destruct r; cbn in *; subst; reflexivity.
  - pose proof (feed_settled r c Hr) as Hr'.
    destruct (feed r c) as [ms r'] eqn:E. cbn [snd] in Hr'. rewrite (IH r' Hr').
    destruct Hr as [[Hs Hd]|Hs]; unfold feed in E; rewrite Hs in E.
    + unfold feed at 2. rewrite Hs. rewrite app_assoc.
      change (drain (S (length (rd_buf r ++ c))) (rd_buf r ++ c)) with (drained (rd_buf r ++ c)) in E.
      change (drain (S (length ((rd_buf r ++ c) ++ concat cs))) ((rd_buf r ++ c) ++ concat cs))
        with (drained ((rd_buf r ++ c) ++ concat cs)).
      rewrite drained_app, E. unfold feed.
      destruct (rd_status r') eqn:Es'; try (rewrite app_nil_r; reflexivity).
      reflexivity.
    + inversion E; subst. unfold feed. cbn [rd_status rd_buf]. rewrite Hs, app_assoc. reflexivity.
Qed.

Lemma reader_init_settled : settled reader_init.
Proof. left; split; reflexivity. Qed.

Theorem chunking_irrelevant chunks :
  feed_all reader_init chunks = feed_all reader_init [concat chunks].
Proof.
  rewrite !feed_all_concat by exact reader_init_settled. cbn [concat]. rewrite app_nil_r. reflexivity.
Qed.

(** ** Round trip *)
Lemma decode_encode_any m x :
  m_service m < 2 ^ 16 -> m_session m < 2 ^ 24 ->
  let k := N.to_nat (nlen (m_payload m) mod 2 ^ 32) in
  amsg_decode (amsg_encode m ++ x) =
  DMsg {| m_service := m_service m; m_session := m_session m; m_payload := firstn k (m_payload m) |}
       (skipn k (m_payload m) ++ x).
Proof.
  intros Hs Hse k. unfold amsg_encode.
  set (h := header_new (m_service m) (m_session m) (u32 (nlen (m_payload m)))).
  assert (Hh : header_from_bytes (header_encode h) = ROk h).
  { apply header_roundtrip; unfold h, header_new; cbn [h_version h_service h_session h_size].
    - reflexivity.
    - exact Hs.
    - apply land_mask24_lt.
    - apply N.mod_lt; discriminate. }
  unfold amsg_decode. rewrite <- app_assoc, app_length, header_encode_length.
  replace (Nat.ltb (HSIZE + length (m_payload m ++ x)) HSIZE) with false by (symmetry; apply Nat.ltb_ge; lia).
  rewrite (firstn_app_exact HSIZE) by (rewrite header_encode_length; reflexivity).
  rewrite Hh.
  replace (h_size h) with (N.of_nat k) by (unfold h, header_new, u32, k; cbn [h_size]; lia).
  rewrite Nat2N.id.
  assert (Hk : (k <= length (m_payload m))%nat).
  { unfold k. pose proof (N.mod_le (nlen (m_payload m)) (2 ^ 32) ltac:(discriminate)).
    unfold nlen in *. lia. }
  rewrite !nlen_app. unfold nlen at 1. rewrite header_encode_length.
  replace (N.ltb _ _) with false by (unfold nlen, HSIZE in *; lia).
  rewrite (Nat.add_comm k HSIZE).
  replace (firstn (HSIZE + k) (header_encode h ++ m_payload m ++ x))
    with (header_encode h ++ firstn k (m_payload m)).
  2:{ rewrite firstn_app, header_encode_length.
      replace (HSIZE + k - HSIZE)%nat with k by lia.
      rewrite (firstn_all2 (n := (HSIZE + k)%nat)) by (rewrite header_encode_length; lia).
      rewrite (firstn_app_le k (m_payload m) x) by exact Hk. reflexivity. }
  rewrite (skipn_app_exact HSIZE) by (rewrite header_encode_length; reflexivity).
  rewrite skipn_app, header_encode_length.
  rewrite (skipn_all2 (n := (HSIZE + k)%nat)) by (rewrite header_encode_length; lia).
  replace (HSIZE + k - HSIZE)%nat with k by lia. cbn [app].
  rewrite (skipn_app_le k (m_payload m) x) by exact Hk.
  f_equal. unfold h, header_new; cbn [h_service h_session].
  rewrite land_mask24, N.mod_small by exact Hse. reflexivity.
Qed.

Lemma decode_encode m x : wf_amsg m -> amsg_decode (amsg_encode m ++ x) = DMsg m x.
Proof.
  intros (Hs & Hse & Hp). rewrite decode_encode_any by assumption. cbn zeta.
  rewrite N.mod_small by exact Hp. unfold nlen. rewrite Nat2N.id, firstn_all, skipn_all.
  destruct m; reflexivity.
Qed.

Lemma encode_layout m : wf_amsg m -> amsg_encode m = frame_layout m.
Proof.
  intros (Hs & Hse & Hp). unfold amsg_encode, frame_layout, header_encode, header_new.
  cbn [h_version h_service h_session h_size]. f_equal.
  rewrite land_mask24, N.mod_small by exact Hse. unfold u32. rewrite N.mod_small by exact Hp.
  generalize dependent (nlen (m_payload m)). intros sz Hsz.
  change (2 ^ 16) with 65536 in Hs. change (2 ^ 24) with 16777216 in Hse. change (2 ^ 32) with 4294967296 in Hsz.
  cbn [to_be app]. change (ARROW_PROTOCOL_VERSION mod 256) with 2.
  repeat (apply cons_eq; [lia|]). reflexivity.
Qed.

Lemma partial_frame_more t : partial_frame t -> amsg_decode t = DMore.
Proof.
  intros (m & s & Hm & Hs & Heq).
  rewrite <- (encode_layout m Hm) in Heq.
  pose proof (decode_encode m [] Hm) as Hd. rewrite app_nil_r, Heq in Hd.
  destruct (amsg_decode t) as [| | |m' rest] eqn:E; [reflexivity| | |].
  - rewrite (decode_err_app _ _ E) in Hd. discriminate.
  - exfalso; exact (decode_no_panic _ E).
  - rewrite (decode_app _ s _ _ E) in Hd. injection Hd as _ Hr.
    apply app_eq_nil in Hr. tauto.
Qed.

Lemma drained_msgs msgs tail :
  Forall wf_amsg msgs ->
  drained (concat (map amsg_encode msgs) ++ tail) =
  let '(ms, r) := drained tail in (msgs ++ ms, r).
Proof.
  induction msgs as [|m msgs IH]; intros Hwf; cbn [map concat app].
  - destruct (drained tail); reflexivity.
  - inversion Hwf as [|? ? Hm Hms]; subst. rewrite drained_eq, <- app_assoc, (decode_encode _ _ Hm), (IH Hms).
    destruct (drained tail); reflexivity.
Qed.

Theorem reassembly msgs tail chunks :
  Forall wf_amsg msgs -> partial_frame tail ->
  concat chunks = concat (map amsg_encode msgs) ++ tail ->
  feed_all reader_init chunks = (msgs, {| rd_buf := tail; rd_status := RSOpen |}).
Proof.
  intros Hwf Ht Hc. rewrite feed_all_concat by exact reader_init_settled. rewrite Hc.
  unfold feed, reader_init. cbn [rd_status rd_buf app].
  fold (drained (concat (map amsg_encode msgs) ++ tail)). rewrite drained_msgs by exact Hwf.
  rewrite drained_eq, (partial_frame_more _ Ht), app_nil_r. reflexivity.
Qed.

Lemma nil_partial : partial_frame [].
Proof.
  exists {| m_service := 0; m_session := 0; m_payload := [] |}.
  eexists. split; [|split; [|reflexivity]]; [|discriminate].
  repeat split.
Qed.

(** A decoded message is always a well-formed one: in particular its session ID has 24 bits. *)
Lemma decode_wf buf m rest :
  wf_bytes buf -> amsg_decode buf = DMsg m rest -> wf_amsg m /\ amsg_encode m ++ rest = buf \/
  wf_amsg m /\ exists r, nth_error buf 3 = Some r /\ r <> 0.
Proof.
  intros Hwf. rewrite (decode_eq_reading buf Hwf).
  do 11 (destruct buf as [|? buf]; [discriminate|]).
  cbn [frame_reading]. destruct (N.eqb n 2) eqn:Ev; [|discriminate]. apply N.eqb_eq in Ev. subst n.
  repeat match goal with H : wf_bytes (_ :: _) |- _ => inversion H as [|? ? ? ?]; clear H; subst end.
  repeat match goal with H : Forall _ (_ :: _) |- _ => inversion H as [|? ? ? ?]; clear H; subst end.
  set (size := n6 * 16777216 + n7 * 65536 + n8 * 256 + n9).
  destruct (N.ltb (nlen buf) size) eqn:El; [discriminate|]. apply N.ltb_ge in El.
  intros Heq; inversion Heq; subst; clear Heq.
  assert (Hlen : nlen (firstn (N.to_nat size) buf) = size)
    by (unfold nlen in *; rewrite firstn_length; lia).
  assert (Hwfm : wf_amsg {| m_service := n0 * 256 + n1; m_session := n3 * 65536 + n4 * 256 + n5;
                            m_payload := firstn (N.to_nat size) buf |}).
  { split; [|split]; cbn [m_service m_session m_payload].
    - change (2 ^ 16) with 65536; lia.
    - change (2 ^ 24) with 16777216; lia.
    - rewrite Hlen. change (2 ^ 32) with 4294967296. unfold size; lia. }
  destruct (N.eq_dec n2 0) as [->|Hr]; [left|right]; (split; [exact Hwfm|]).
  - rewrite (encode_layout _ Hwfm). unfold frame_layout. cbn [m_service m_session m_payload].
    rewrite Hlen, <- app_assoc, firstn_skipn. unfold size. cbn [app].
    repeat (apply cons_eq; [lia|]). reflexivity.
  - exists n2. cbn [nth_error]. auto.
Qed.
