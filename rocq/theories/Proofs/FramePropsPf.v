(** Final forms of the framing theorems. *)
From Coq Require Import NArith List Bool Lia ZArith ZifyBool ZifyNat ZifyN.
From Verif.Model Require Import Bytes Frame.
From Verif.Spec Require Import FrameSpec.
From Verif.Proofs Require Import BytesFacts FrameProofs.
Import ListNotations.
Local Open Scope N_scope.
Ltac Zify.zify_post_hook ::= Z.div_mod_to_equations.

Lemma reassembly_layout msgs tail chunks :
  Forall wf_amsg msgs -> partial_frame tail ->
  concat chunks = concat (map frame_layout msgs) ++ tail ->
  feed_all reader_init chunks = (msgs, {| rd_buf := tail; rd_status := RSOpen |}) /\
  concat (map amsg_encode msgs) = concat (map frame_layout msgs).
Proof.
  intros Hwf Ht Hc.
  assert (E : concat (map amsg_encode msgs) = concat (map frame_layout msgs)).
  { clear Hc. induction Hwf as [|m ms Hm Hms IH]; [reflexivity|]. cbn [map concat].
    now rewrite (encode_layout m Hm), IH. }
  split; [|exact E]. apply reassembly; [assumption..|]. now rewrite E.
Qed.

Lemma chunkings_agree c1 c2 :
  concat c1 = concat c2 -> feed_all reader_init c1 = feed_all reader_init c2.
Proof. intros H. rewrite chunking_irrelevant, H, <- chunking_irrelevant. reflexivity. Qed.

Lemma decoder_exact buf :
  wf_bytes buf ->
  amsg_decode buf = frame_reading buf /\
  amsg_decode buf <> DPanic /\
  forall m rest, amsg_decode buf = DMsg m rest -> m_session m < 2 ^ 24 /\
    nlen buf = 11 + nlen (m_payload m) + nlen rest.
Proof.
  intros Hwf. split; [now apply decode_eq_reading|]. split; [apply decode_no_panic|].
  intros m rest Hd. split.
  - destruct (decode_wf _ _ _ Hwf Hd) as [[(_ & H & _) _]|[(_ & H & _) _]]; exact H.
  - rewrite (decode_eq_reading buf Hwf) in Hd.
    do 11 (destruct buf as [|? buf]; [discriminate|]). cbn [frame_reading] in Hd.
    destruct (N.eqb n 2); [|discriminate].
    match type of Hd with context [N.ltb (nlen buf) ?s] => remember s as size end.
    destruct (N.ltb (nlen buf) size) eqn:El; [discriminate|]. apply N.ltb_ge in El.
    injection Hd as <- <-. cbn [m_payload]. unfold nlen in *. cbn [length].
    rewrite firstn_length, skipn_length. lia.
Qed.

Lemma list_of_length (n : N) : exists p : bytes, nlen p = n.
Proof. exists (repeat 7 (N.to_nat n)). unfold nlen. rewrite repeat_length. apply N2Nat.id. Qed.

Lemma length_refuted :
  exists m, m_service m < 2 ^ 16 /\ m_session m < 2 ^ 24 /\
    feed_all reader_init [amsg_encode m] <> ([m], reader_init).
Proof.
  destruct (list_of_length (2 ^ 32)) as [p Hp].
  exists {| m_service := 1; m_session := 1; m_payload := p |}.
  split; [reflexivity|]. split; [reflexivity|].
  intros H.
  rewrite feed_all_concat in H by exact reader_init_settled. cbn [concat] in H. rewrite app_nil_r in H.
  unfold feed, reader_init in H. cbn [rd_status rd_buf app] in H.
  remember {| m_service := 1; m_session := 1; m_payload := p |} as m eqn:Em.
  change (drain (S (length (amsg_encode m))) (amsg_encode m)) with (drained (amsg_encode m)) in H.
  rewrite drained_eq in H.
  assert (Hd := decode_encode_any m []). rewrite app_nil_r in Hd. cbn zeta in Hd.
  rewrite Hd in H by (subst m; reflexivity).
  assert (Hk : N.to_nat (nlen (m_payload m) mod 2 ^ 32) = O).
  { subst m. cbn [m_payload]. rewrite Hp. reflexivity. }
  rewrite Hk in H. cbn [firstn] in H.
  destruct (drained _) as [ms r]. injection H as Hm _ _.
  assert (X : nlen (m_payload m) = 0) by now rewrite <- Hm.
  subst m. cbn [m_payload] in X. rewrite Hp in X. discriminate.
Qed.
