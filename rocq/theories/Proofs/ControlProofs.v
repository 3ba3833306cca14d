(** Control protocol proofs. *)
From Coq Require Import NArith List Bool Lia ZArith ZifyBool ZifyNat ZifyN Permutation.
From Verif.Model Require Import Bytes Utf8 Frame Service Control.
From Verif.Spec Require Import FrameSpec ControlSpec.
From Verif.Proofs Require Import BytesFacts FrameProofs.
Import ListNotations.
Local Open Scope N_scope.
Ltac Zify.zify_post_hook ::= Z.div_mod_to_equations.

Ltac pows := change (2 ^ 8) with 256 in *; change (2 ^ 16) with 65536 in *; change (2 ^ 24) with 16777216 in *;
  change (2 ^ 32) with 4294967296 in *; change (2 ^ 48) with 281474976710656 in *.

(** ** UTF-8 *)
Lemma between_spec lo hi b : between lo hi b = true <-> lo <= b <= hi.
Proof. unfold between. lia. Qed.

Lemma utf8_char_wf c : scalar c -> wf_bytes (utf8_char c).
Proof.
  unfold scalar, utf8_char, wf_bytes. intros H.
  destruct (N.ltb c 128) eqn:E1; [repeat constructor; lia|].
  destruct (N.ltb c 2048) eqn:E2; [repeat constructor; lia|].
  destruct (N.ltb c 65536) eqn:E3; [repeat constructor; lia|].
  repeat constructor; lia.
Qed.

Lemma utf8_valid_char c t : scalar c -> utf8_valid (utf8_char c ++ t) = utf8_valid t.
Proof.
  intros H. unfold scalar in H. unfold utf8_char.
  destruct (N.ltb c 128) eqn:E1.
  { cbn [app utf8_valid]. replace (N.leb c 127) with true by lia. reflexivity. }
  destruct (N.ltb c 2048) eqn:E2.
  { cbn [app utf8_valid].
    replace (N.leb (192 + c / 64) 127) with false by lia.
    replace (between 194 223 (192 + c / 64)) with true by (symmetry; apply between_spec; lia).
    replace (cont (128 + c mod 64)) with true by (symmetry; apply between_spec; lia). reflexivity. }
  destruct (N.ltb c 65536) eqn:E3.
  { cbn [app utf8_valid].
    replace (N.leb (224 + c / 4096) 127) with false by lia.
    replace (between 194 223 (224 + c / 4096)) with false by (unfold between; lia).
    replace (between 224 239 (224 + c / 4096)) with true by (symmetry; apply between_spec; lia).
    replace (cont (128 + c mod 64)) with true by (symmetry; apply between_spec; lia).
    destruct (N.eqb (224 + c / 4096) 224) eqn:E4.
    { replace (between 160 191 (128 + c / 64 mod 64)) with true by (symmetry; apply between_spec; lia). reflexivity. }
    destruct (N.eqb (224 + c / 4096) 237) eqn:E5.
    { replace (between 128 159 (128 + c / 64 mod 64)) with true by (symmetry; apply between_spec; lia). reflexivity. }
    replace (cont (128 + c / 64 mod 64)) with true by (symmetry; apply between_spec; lia). reflexivity. }
  cbn [app utf8_valid].
  replace (N.leb (240 + c / 262144) 127) with false by lia.
  replace (between 194 223 (240 + c / 262144)) with false by (unfold between; lia).
  replace (between 224 239 (240 + c / 262144)) with false by (unfold between; lia).
  replace (between 240 244 (240 + c / 262144)) with true by (symmetry; apply between_spec; lia).
  replace (cont (128 + c mod 64)) with true by (symmetry; apply between_spec; lia).
  replace (cont (128 + c / 64 mod 64)) with true by (symmetry; apply between_spec; lia).
  destruct (N.eqb (240 + c / 262144) 240) eqn:E4.
  { replace (between 144 191 (128 + c / 4096 mod 64)) with true by (symmetry; apply between_spec; lia). reflexivity. }
  destruct (N.eqb (240 + c / 262144) 244) eqn:E5.
  { replace (between 128 143 (128 + c / 4096 mod 64)) with true by (symmetry; apply between_spec; lia). reflexivity. }
  replace (cont (128 + c / 4096 mod 64)) with true by (symmetry; apply between_spec; lia). reflexivity.
Qed.

Lemma utf8_text_cons c t b : scalar c -> utf8_text t -> b = utf8_char c ++ t -> utf8_text b.
Proof. intros Hc (cps & Hf & ->) ->. exists (c :: cps). split; [now constructor|reflexivity]. Qed.

Lemma utf8_valid_text b : utf8_valid b = true -> utf8_text b.
Proof.
  revert b. apply (bytes_len_ind (fun b => utf8_valid b = true -> utf8_text b)).
  intros b IH. destruct b as [|b0 t0].
  { intros _. exists []. split; [constructor|reflexivity]. }
  cbn [utf8_valid]. destruct (N.leb b0 127) eqn:E0.
  { intros H. apply (utf8_text_cons b0 t0); [unfold scalar; lia| apply IH; [cbn; lia|exact H]|].
    unfold utf8_char. replace (N.ltb b0 128) with true by lia. reflexivity. }
  destruct (between 194 223 b0) eqn:E1.
  { destruct t0 as [|b1 t1]; [discriminate|]. intros H. apply andb_prop in H as [H1 H2].
    unfold cont in H1. apply between_spec in H1. apply between_spec in E1.
    apply (utf8_text_cons ((b0 - 192) * 64 + (b1 - 128)) t1); [unfold scalar; lia|apply IH; [cbn; lia|exact H2]|].
    unfold utf8_char.
    replace (N.ltb ((b0 - 192) * 64 + (b1 - 128)) 128) with false by lia.
    replace (N.ltb ((b0 - 192) * 64 + (b1 - 128)) 2048) with true by lia.
    cbn [app]. repeat (apply cons_eq; [lia|]). reflexivity. }
  destruct (between 224 239 b0) eqn:E2.
  { destruct t0 as [|b1 [|b2 t2]]; [discriminate|discriminate|]. intros H.
    apply andb_prop in H as [H H3]. apply andb_prop in H as [H1 H2].
    unfold cont in *. apply between_spec in H2. apply between_spec in E2.
    assert (Hb1 : 128 <= b1 <= 191 /\ (b0 = 224 -> 160 <= b1) /\ (b0 = 237 -> b1 <= 159)).
    { destruct (N.eqb b0 224) eqn:E4; [|destruct (N.eqb b0 237) eqn:E5]; apply between_spec in H1; lia. }
    set (c := (b0 - 224) * 4096 + (b1 - 128) * 64 + (b2 - 128)).
    apply (utf8_text_cons c t2); [unfold scalar, c; lia|apply IH; [cbn; lia|exact H3]|].
    unfold utf8_char.
    replace (N.ltb c 128) with false by (unfold c; lia).
    replace (N.ltb c 2048) with false by (unfold c; lia).
    replace (N.ltb c 65536) with true by (unfold c; lia).
    cbn [app]. unfold c. repeat (apply cons_eq; [lia|]). reflexivity. }
  destruct (between 240 244 b0) eqn:E3; [|discriminate].
  destruct t0 as [|b1 [|b2 [|b3 t3]]]; [discriminate..|]. intros H.
  apply andb_prop in H as [H H4]. apply andb_prop in H as [H H3]. apply andb_prop in H as [H1 H2].
  unfold cont in *. apply between_spec in H2. apply between_spec in H3. apply between_spec in E3.
  assert (Hb1 : 128 <= b1 <= 191 /\ (b0 = 240 -> 144 <= b1) /\ (b0 = 244 -> b1 <= 143)).
  { destruct (N.eqb b0 240) eqn:E4; [|destruct (N.eqb b0 244) eqn:E5]; apply between_spec in H1; lia. }
  set (c := (b0 - 240) * 262144 + (b1 - 128) * 4096 + (b2 - 128) * 64 + (b3 - 128)).
  apply (utf8_text_cons c t3); [unfold scalar, c; lia|apply IH; [cbn; lia|exact H4]|].
  unfold utf8_char.
  replace (N.ltb c 128) with false by (unfold c; lia).
  replace (N.ltb c 2048) with false by (unfold c; lia).
  replace (N.ltb c 65536) with false by (unfold c; lia).
  cbn [app]. unfold c. repeat (apply cons_eq; [lia|]). reflexivity.
Qed.

Lemma utf8_text_valid b : utf8_text b -> utf8_valid b = true.
Proof.
  intros (cps & Hf & ->). induction Hf as [|c cps Hc Hf IH]; [reflexivity|].
  cbn [map concat]. now rewrite utf8_valid_char.
Qed.

Lemma utf8_text_iff b : utf8_valid b = true <-> utf8_text b.
Proof. split; [apply utf8_valid_text|apply utf8_text_valid]. Qed.

Lemma utf8_text_wf b : utf8_text b -> wf_bytes b.
Proof.
  intros (cps & Hf & ->). induction Hf as [|c cps Hc Hf IH]; [constructor|].
  cbn [map concat]. apply wf_app; [now apply utf8_char_wf|exact IH].
Qed.

(** ** Decoder *)
Lemma be16_of_be id : id < 2 ^ 16 -> of_be (be16 id) = id.
Proof. intros H. pows. unfold be16. rewrite of_be_2. lia. Qed.
Lemma be32_of_be x : x < 2 ^ 32 -> of_be (be32 x) = x.
Proof. intros H. pows. unfold be32. rewrite of_be_4. lia. Qed.
Lemma be16_to_be x : x < 2 ^ 16 -> to_be 2 x = be16 x.
Proof. intros H. pows. unfold be16. cbn [to_be app]. repeat (apply cons_eq; [lia|]). reflexivity. Qed.
Lemma be32_to_be x : x < 2 ^ 32 -> to_be 4 x = be32 x.
Proof. intros H. pows. unfold be32. cbn [to_be app]. repeat (apply cons_eq; [lia|]). reflexivity. Qed.

Lemma be16_ex a b : a < 256 -> b < 256 -> exists x, x < 2 ^ 16 /\ [a; b] = be16 x /\ of_be [a; b] = x.
Proof.
  intros Ha Hb. exists (a * 256 + b). pows. split; [lia|]. split.
  - unfold be16. repeat (apply cons_eq; [lia|]). reflexivity.
  - rewrite of_be_2. lia.
Qed.
Lemma be32_ex a b c d : a < 256 -> b < 256 -> c < 256 -> d < 256 ->
  exists x, x < 2 ^ 32 /\ [a; b; c; d] = be32 x /\ of_be [a; b; c; d] = x.
Proof.
  intros Ha Hb Hc Hd. exists (a * 16777216 + b * 65536 + c * 256 + d). pows. split; [lia|]. split.
  - unfold be32. repeat (apply cons_eq; [lia|]). reflexivity.
  - rewrite of_be_4. lia.
Qed.

Lemma from_bytes_head id code body :
  id < 2 ^ 16 -> code < 2 ^ 16 ->
  cmsg_from_bytes (be16 id ++ be16 code ++ body) =
  match decode_body (message_type code) body with
  | ROk b => ROk {| cm_id := id; cm_type := code; cm_body := b |}
  | RErr => RErr
  | RPanic => RPanic
  end.
Proof.
  intros Hi Hc. unfold cmsg_from_bytes.
  change (Nat.ltb (length (be16 id ++ be16 code ++ body)) 4) with false.
  change (field (firstn 4 (be16 id ++ be16 code ++ body)) 0 2) with (be16 id).
  change (field (firstn 4 (be16 id ++ be16 code ++ body)) 2 2) with (be16 code).
  change (skipn 4 (be16 id ++ be16 code ++ body)) with body.
  rewrite be16_of_be, be16_of_be by assumption. reflexivity.
Qed.

Lemma redirect_app t : redirect_from_bytes (t ++ [0]) = if utf8_valid t then FSome (BRedirect t) else FErr.
Proof.
  unfold redirect_from_bytes. rewrite app_length. cbn [length].
  replace (Nat.eqb (length t + 1) 0) with false by lia.
  replace (length t + 1 - 1)%nat with (length t) by lia.
  rewrite nth_error_app2, Nat.sub_diag by lia. cbn [nth_error]. change (N.eqb 0 0) with true. cbn [negb].
  rewrite firstn_app_exact by reflexivity. reflexivity.
Qed.

Lemma redirect_inv b body : redirect_from_bytes b = FSome body ->
  exists t, b = t ++ [0] /\ utf8_valid t = true /\ body = BRedirect t.
Proof.
  destruct b as [|b0 b']; [discriminate|].
  destruct (@exists_last _ (b0 :: b') ltac:(discriminate)) as (t & x & E). rewrite E. clear E.
  unfold redirect_from_bytes. rewrite app_length. cbn [length].
  replace (Nat.eqb (length t + 1) 0) with false by lia.
  replace (length t + 1 - 1)%nat with (length t) by lia.
  rewrite nth_error_app2, Nat.sub_diag by lia. cbn [nth_error].
  rewrite firstn_app_exact by reflexivity.
  destruct (N.eqb x 0) eqn:Ex; cbn [negb]; [|discriminate]. apply N.eqb_eq in Ex. subst x.
  destruct (utf8_valid t) eqn:Ev; [|discriminate]. intros H; inversion H. eauto.
Qed.

Lemma redirect_no_none b : redirect_from_bytes b <> FNone.
Proof.
  unfold redirect_from_bytes. destruct (Nat.eqb (length b) 0) eqn:E; [discriminate|].
  destruct (nth_error b (length b - 1)) eqn:En.
  - destruct (negb _); [discriminate|]. destruct (utf8_valid _); discriminate.
  - apply nth_error_None in En. lia.
Qed.

Lemma decode_body_no_panic t b : decode_body t b <> RPanic.
Proof.
  destruct t; cbn [decode_body]; try discriminate;
    unfold ack_from_bytes, connect_from_bytes, data_ack_from_bytes, hup_from_bytes, empty_from_bytes;
    try (destruct (negb _); discriminate); try (destruct b; discriminate).
  pose proof (redirect_no_none b). destruct (redirect_from_bytes b); cbn; congruence.
Qed.

Lemma cmsg_no_panic b : cmsg_from_bytes b <> RPanic.
Proof.
  unfold cmsg_from_bytes. destruct (Nat.ltb _ _); [discriminate|].
  pose proof (decode_body_no_panic (message_type (of_be (field (firstn 4 b) 2 2))) (skipn 4 b)).
  destruct (decode_body _ _); congruence.
Qed.

Lemma accept_complete b m : server_message b m -> cmsg_from_bytes b = ROk m.
Proof.
  intros H; destruct H as [id err Hi He|id code Hi Hc|id t Hi Ht|id s e Hi Hs He|id s l Hi Hs Hl|id v s Hi Hv Hs].
  - change ([0; 0]) with (be16 0). rewrite from_bytes_head by (assumption || reflexivity).
    cbn [message_type decode_body lift_from]. unfold ack_from_bytes.
    change (negb (Nat.eqb (length (be32 err)) 4)) with false. cbn [lift_from].
    change (field (be32 err) 0 4) with (be32 err). rewrite be32_of_be by exact He. reflexivity.
  - assert (Hc' : [0; code] = be16 code ++ [] /\ code < 2 ^ 16 /\ decode_body (message_type code) [] = ROk BEmpty)
      by (cbn [In] in Hc; destruct Hc as [<-|[<-|[<-|[<-|[<-|[]]]]]]; repeat split).
    destruct Hc' as (-> & Hcode & Hd). rewrite from_bytes_head, Hd by assumption. reflexivity.
  - change ([0; 3]) with (be16 3). rewrite from_bytes_head by (assumption || reflexivity).
    cbn [message_type decode_body]. rewrite redirect_app, (proj2 (utf8_text_iff t) Ht). reflexivity.
  - change ([0; 5]) with (be16 5). rewrite from_bytes_head by (assumption || reflexivity).
    cbn [message_type decode_body]. unfold hup_from_bytes.
    change (negb (Nat.eqb (length (be32 s ++ be32 e)) 8)) with false. cbn [lift_from].
    change (field (be32 s ++ be32 e) 0 4) with (be32 s). change (field (be32 s ++ be32 e) 4 4) with (be32 e).
    rewrite !be32_of_be by assumption. reflexivity.
  - change ([0; 12]) with (be16 12). rewrite from_bytes_head by (assumption || reflexivity).
    cbn [message_type decode_body]. unfold data_ack_from_bytes.
    change (negb (Nat.eqb (length (be32 s ++ be32 l)) 8)) with false. cbn [lift_from].
    change (field (be32 s ++ be32 l) 0 4) with (be32 s). change (field (be32 s ++ be32 l) 4 4) with (be32 l).
    rewrite !be32_of_be by assumption. reflexivity.
  - change ([0; 13]) with (be16 13). rewrite from_bytes_head by (assumption || reflexivity).
    cbn [message_type decode_body]. unfold connect_from_bytes.
    change (negb (Nat.eqb (length (be16 v ++ be32 s)) 6)) with false. cbn [lift_from].
    change (field (be16 v ++ be32 s) 0 2) with (be16 v). change (field (be16 v ++ be32 s) 2 4) with (be32 s).
    rewrite be16_of_be, be32_of_be by assumption. reflexivity.
Qed.

(** The message types by code. *)
Lemma message_type_cases code :
  (code = 0 /\ message_type code = ACK) \/ (code = 1 /\ message_type code = PING) \/
  (code = 2 /\ message_type code = REGISTER) \/ (code = 3 /\ message_type code = REDIRECT) \/
  (code = 4 /\ message_type code = UPDATE) \/ (code = 5 /\ message_type code = HUP) \/
  (code = 6 /\ message_type code = RESET_SVC_TABLE) \/ (code = 7 /\ message_type code = SCAN_NETWORK) \/
  (code = 8 /\ message_type code = GET_STATUS) \/ (code = 9 /\ message_type code = STATUS) \/
  (code = 10 /\ message_type code = GET_SCAN_REPORT) \/ (code = 11 /\ message_type code = SCAN_REPORT) \/
  (code = 12 /\ message_type code = DATA_ACK) \/ (code = 13 /\ message_type code = CONNECT) \/
  (13 < code /\ message_type code = UNKNOWN).
Proof.
  destruct (N.ltb 13 code) eqn:E.
  - do 14 right. split; [lia|].
    destruct code as [|p]; [discriminate|].
    do 4 (destruct p as [p|p|]; try reflexivity; try (cbv in E; discriminate)).
  - assert (H : code = 0 \/ code = 1 \/ code = 2 \/ code = 3 \/ code = 4 \/ code = 5 \/ code = 6 \/ code = 7
      \/ code = 8 \/ code = 9 \/ code = 10 \/ code = 11 \/ code = 12 \/ code = 13) by lia.
    clear E. repeat destruct H as [->|H]; try subst code; cbn [message_type]; tauto.
Qed.

Lemma len4 (b : bytes) : length b = 4%nat -> exists x0 x1 x2 x3, b = [x0; x1; x2; x3].
Proof. intros H. do 5 (destruct b as [|? b]; try discriminate). eauto. Qed.
Lemma len6 (b : bytes) : length b = 6%nat -> exists x0 x1 x2 x3 x4 x5, b = [x0; x1; x2; x3; x4; x5].
Proof. intros H. do 7 (destruct b as [|? b]; try discriminate). repeat eexists. Qed.
Lemma len8 (b : bytes) : length b = 8%nat -> exists x0 x1 x2 x3 x4 x5 x6 x7, b = [x0; x1; x2; x3; x4; x5; x6; x7].
Proof. intros H. do 9 (destruct b as [|? b]; try discriminate). repeat eexists. Qed.

Ltac inv_wf := repeat match goal with
  | H : wf_bytes (_ :: _) |- _ => inversion H as [|? ? ? ?]; clear H; subst
  | H : Forall _ (_ :: _) |- _ => inversion H as [|? ? ? ?]; clear H; subst end.

Lemma accept_sound b m : wf_bytes b -> cmsg_from_bytes b = ROk m -> server_message b m.
Proof.
  intros Hwf H.
  do 4 (destruct b as [|? b]; [discriminate|]).
  inv_wf.
  destruct (be16_ex n n0) as (id & Hid & Eid & Vid); [assumption..|].
  destruct (be16_ex n1 n2) as (code & Hcode & Ecode & Vcode); [assumption..|].
  change (n :: n0 :: n1 :: n2 :: b) with ([n; n0] ++ [n1; n2] ++ b) in H |- *. rewrite Eid, Ecode in H |- *.
  rewrite from_bytes_head in H by assumption.
  destruct (message_type_cases code) as [[-> E]|[[-> E]|[[-> E]|[[-> E]|[[-> E]|[[-> E]|[[-> E]|[[-> E]|[[-> E]|[[-> E]|[[-> E]|[[-> E]|[[-> E]|[[-> E]|[_ E]]]]]]]]]]]]]]];
    rewrite E in H; cbn [decode_body] in H; try discriminate.
  all: try (destruct b as [|? ?]; [|discriminate]; inversion H; apply SM_empty; [assumption|cbn; tauto]).
  - unfold ack_from_bytes in H. destruct (Nat.eqb (length b) 4) eqn:El; cbn [negb lift_from] in H; [|discriminate].
    apply Nat.eqb_eq in El. apply len4 in El as (x0 & x1 & x2 & x3 & ->). inv_wf.
    change (field [x0; x1; x2; x3] 0 4) with [x0; x1; x2; x3] in H.
    destruct (be32_ex x0 x1 x2 x3) as (v & Hv & Ev & Vv); [assumption..|].
    rewrite Vv in H. rewrite Ev. inversion H. apply SM_ack; assumption.
  - destruct (redirect_from_bytes b) eqn:Er; cbn [lift_from] in H; try discriminate.
    apply redirect_inv in Er as (t & -> & Ht & ->). inversion H. apply SM_redirect; [assumption|].
    now apply utf8_text_iff.
  - unfold hup_from_bytes in H. destruct (Nat.eqb (length b) 8) eqn:El; cbn [negb lift_from] in H; [|discriminate].
    apply Nat.eqb_eq in El. apply len8 in El as (x0 & x1 & x2 & x3 & x4 & x5 & x6 & x7 & ->). inv_wf.
    change (field _ 0 4) with [x0; x1; x2; x3] in H.
    change (field _ 4 4) with [x4; x5; x6; x7] in H.
    destruct (be32_ex x0 x1 x2 x3) as (v & Hv & Ev & Vv); [assumption..|].
    destruct (be32_ex x4 x5 x6 x7) as (w & Hw & Ew & Vw); [assumption..|].
    rewrite Vv, Vw in H. change ([x0; x1; x2; x3; x4; x5; x6; x7]) with ([x0; x1; x2; x3] ++ [x4; x5; x6; x7]).
    rewrite Ev, Ew. inversion H. apply SM_hup; assumption.
  - unfold data_ack_from_bytes in H. destruct (Nat.eqb (length b) 8) eqn:El; cbn [negb lift_from] in H; [|discriminate].
    apply Nat.eqb_eq in El. apply len8 in El as (x0 & x1 & x2 & x3 & x4 & x5 & x6 & x7 & ->). inv_wf.
    change (field _ 0 4) with [x0; x1; x2; x3] in H.
    change (field _ 4 4) with [x4; x5; x6; x7] in H.
    destruct (be32_ex x0 x1 x2 x3) as (v & Hv & Ev & Vv); [assumption..|].
    destruct (be32_ex x4 x5 x6 x7) as (w & Hw & Ew & Vw); [assumption..|].
    rewrite Vv, Vw in H. change ([x0; x1; x2; x3; x4; x5; x6; x7]) with ([x0; x1; x2; x3] ++ [x4; x5; x6; x7]).
    rewrite Ev, Ew. inversion H. apply SM_data_ack; assumption.
  - unfold connect_from_bytes in H. destruct (Nat.eqb (length b) 6) eqn:El; cbn [negb lift_from] in H; [|discriminate].
    apply Nat.eqb_eq in El. apply len6 in El as (x0 & x1 & x2 & x3 & x4 & x5 & ->). inv_wf.
    change (field _ 0 2) with [x0; x1] in H.
    change (field _ 2 4) with [x2; x3; x4; x5] in H.
    destruct (be16_ex x0 x1) as (v & Hv & Ev & Vv); [assumption..|].
    destruct (be32_ex x2 x3 x4 x5) as (w & Hw & Ew & Vw); [assumption..|].
    rewrite Vv, Vw in H. change ([x0; x1; x2; x3; x4; x5]) with ([x0; x1] ++ [x2; x3; x4; x5]).
    rewrite Ev, Ew. inversion H. apply SM_connect; assumption.
Qed.

Lemma server_message_encode b m : server_message b m -> cmsg_encode m = b.
Proof.
  intros H; destruct H as [id err Hi He|id code Hi Hc|id t Hi Ht|id s e Hi Hs He|id s l Hi Hs Hl|id v s Hi Hv Hs];
    unfold cmsg_encode; cbn [cm_id cm_type cm_body body_encode]; rewrite (be16_to_be id) by assumption; f_equal.
  - rewrite be32_to_be by assumption. reflexivity.
  - cbn [In] in Hc. destruct Hc as [<-|[<-|[<-|[<-|[<-|[]]]]]]; reflexivity.
  - rewrite !be32_to_be by assumption. reflexivity.
  - rewrite !be32_to_be by assumption. reflexivity.
  - rewrite (be16_to_be v), (be32_to_be s) by assumption. reflexivity.
Qed.

Lemma accept_iff b m : wf_bytes b -> (cmsg_from_bytes b = ROk m <-> server_message b m).
Proof. intros H. split; [now apply accept_sound|apply accept_complete]. Qed.

Lemma type_codes : forall (code : N) (t : ctype), t <> UNKNOWN ->
  (In (code, t) wire_codes <-> message_type code = t) /\ (In (code, t) wire_codes <-> ctype_code t = Some code).
Proof.
  intros code t U. split; split.
  - intros H. unfold wire_codes in H. cbn [In] in H. repeat (destruct H as [H|H]; [injection H as <- <-; reflexivity|]); contradiction.
  - intros <-. destruct (message_type_cases code) as [[-> E]|[[-> E]|[[-> E]|[[-> E]|[[-> E]|[[-> E]|[[-> E]|[[-> E]|[[-> E]|[[-> E]|[[-> E]|[[-> E]|[[-> E]|[[-> E]|[_ E]]]]]]]]]]]]]]];
      rewrite E in *; try (unfold wire_codes; cbn [In]; tauto).
  - intros H. unfold wire_codes in H. cbn [In] in H. repeat (destruct H as [H|H]; [injection H as <- <-; reflexivity|]); contradiction.
  - intros E. destruct t; try discriminate E; injection E as <-; unfold wire_codes; cbn [In]; tauto.
Qed.
