(** C01-C04: Arrow framing. *)
From Coq Require Import NArith List.
From Verif.Model Require Import Bytes Frame.
From Verif.Spec Require Import FrameSpec.
From Verif.Proofs Require Import FrameProofs FramePropsPf.
Import ListNotations.
Local Open Scope N_scope.

(** C01: the encoder writes the documented layout, and from any chunking of a concatenation of frames
    followed by an incomplete frame the receiver gets exactly the messages; the incomplete frame stays
    buffered. *)
Theorem C01_framing_reassembly :
  forall (msgs : list amsg) (tail : bytes) (chunks : list bytes),
    Forall wf_amsg msgs -> partial_frame tail ->
    concat chunks = concat (map frame_layout msgs) ++ tail ->
    feed_all reader_init chunks = (msgs, {| rd_buf := tail; rd_status := RSOpen |}) /\
    concat (map amsg_encode msgs) = concat (map frame_layout msgs).
Proof. exact reassembly_layout. Qed.
Print Assumptions C01_framing_reassembly.

Example C01_case :
  let m1 := {| m_service := 258; m_session := 66051; m_payload := [9; 8; 7] |} in
  let m2 := {| m_service := 0; m_session := 0; m_payload := [] |} in
  wf_amsg m1 /\ wf_amsg m2 /\ partial_frame [2; 0] /\
  fst (feed_all reader_init [[2; 1]; []; [2; 0; 1; 2; 3; 0; 0; 0; 3; 9; 8]; [7; 2; 0; 0; 0; 0; 0; 0; 0; 0; 0; 0; 2]; [0]])
  = [m1; m2].
Proof.
  cbn zeta. split; [repeat split|]. split; [repeat split|]. split; [|vm_compute; reflexivity].
  exists {| m_service := 0; m_session := 0; m_payload := [] |}. eexists.
  split; [repeat split|]. split; [|reflexivity]. discriminate.
Qed.

(** C02: messages, error point and unread bytes depend only on the byte stream. *)
Theorem C02_chunking_independence :
  forall (chunks1 chunks2 : list bytes),
    concat chunks1 = concat chunks2 ->
    feed_all reader_init chunks1 = feed_all reader_init chunks2.
Proof. exact chunkings_agree. Qed.
Print Assumptions C02_chunking_independence.

Example C02_case :
  feed_all reader_init [[2; 0; 1; 0; 0; 0; 5; 0; 0; 0; 0; 3]; [0; 0; 0; 0; 0; 0; 0; 0; 0; 0]; [1]]
  = ([{| m_service := 1; m_session := 5; m_payload := [] |}],
     {| rd_buf := [3; 0; 0; 0; 0; 0; 0; 0; 0; 0; 0; 1]; rd_status := RSFailed |}).
Proof. vm_compute. reflexivity. Qed.

(** C03: on every buffer the decoder does exactly what [frame_reading] says (error iff a whole header
    with another version is there; more data iff incomplete; otherwise consume 11 + size bytes). *)
Theorem C03_frame_acceptance :
  forall buf : bytes, wf_bytes buf ->
    amsg_decode buf = frame_reading buf /\
    amsg_decode buf <> DPanic /\
    forall m rest, amsg_decode buf = DMsg m rest ->
      m_session m < 2 ^ 24 /\ nlen buf = 11 + nlen (m_payload m) + nlen rest.
Proof. exact decoder_exact. Qed.
Print Assumptions C03_frame_acceptance.

Example C03_case :
  wf_bytes [2; 0; 1; 255; 0; 0; 5; 0; 0; 0; 1; 42; 77] /\
  amsg_decode [2; 0; 1; 255; 0; 0; 5; 0; 0; 0; 1; 42; 77]
  = DMsg {| m_service := 1; m_session := 5; m_payload := [42] |} [77].
Proof. split; [repeat constructor|vm_compute; reflexivity]. Qed.

(** C04 is false as stated: the length field is a truncated u32. *)
Theorem C04_any_length_refuted :
  exists m, m_service m < 2 ^ 16 /\ m_session m < 2 ^ 24 /\
    feed_all reader_init [amsg_encode m] <> ([m], reader_init).
Proof. exact length_refuted. Qed.
Print Assumptions C04_any_length_refuted.

(** C04, true part: payloads shorter than 2^32 bytes survive. *)
Theorem C04_any_length_partial :
  forall m x, wf_amsg m -> amsg_decode (amsg_encode m ++ x) = DMsg m x.
Proof. exact decode_encode. Qed.
Print Assumptions C04_any_length_partial.

Example C04_case : wf_amsg {| m_service := 1; m_session := 5; m_payload := [1; 2; 3] |}.
Proof. repeat split. Qed.
