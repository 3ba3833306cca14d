(** The end of the server's stream behind buffered frames. *)
From Coq Require Import NArith ZArith List Bool Lia.
From Verif.Model Require Import Bytes Frame Wire.
From Verif.Spec Require Import FrameSpec WireSpec.
From Verif.Proofs Require Import FrameProofs WirePf WireFinal.
Import ListNotations.

Definition live (w : framed) (sock : list sread) : Prop :=
  f_errored w = false /\
  ((f_eof w = false /\ (f_readable w = true \/ amsg_decode (f_buf w) = DMore) /\
    exists chunks, Forall (fun c : bytes => c <> []) chunks /\ sock = map SData chunks ++ [SData []]) \/
   (f_eof w = true /\ f_readable w = true /\ sock = [])).

Lemma sock_chunks chunks : sock_bytes (map SData chunks ++ [SData []]) = concat chunks.
Proof. induction chunks as [|c cs IH]; [reflexivity|]. cbn. unfold sock_bytes in IH. rewrite IH. reflexivity. Qed.

Definition last_of (b : bytes) : fnext := match b with [] => FEnd | _ => FError end.

Definition call_ok (b : bytes) (x : fnext) (w' : framed) (sock' : list sread) : Prop :=
  match amsg_decode b with
  | DMsg m r => x = FItem m /\ live w' sock' /\ rem w' sock' = r
  | _ => x = last_of b
  end.

Lemma call_decoded w sock x w' : live w sock -> framed_decode w = Some (x, w') -> call_ok (rem w sock) x w' sock.
Proof.
  intros [Er L]. unfold framed_decode. rewrite Er.
  destruct (f_readable w) eqn:Rd; [|discriminate].
  destruct (amsg_decode (f_buf w)) as [| | |m r] eqn:D.
  - destruct (f_eof w) eqn:Ef; [|discriminate].
    destruct L as [(X & _)|(_ & _ & ->)]; [discriminate|]. unfold call_ok, rem. cbn [sock_bytes flat_map]. rewrite app_nil_r, D.
    destruct (f_buf w); intros E; injection E as <- <-; reflexivity.
  - intros E; injection E as <- <-. unfold call_ok, rem. rewrite (decode_err_app _ _ D).
    destruct (f_buf w); [discriminate D|reflexivity].
  - exfalso. exact (decode_no_panic _ D).
  - intros E; injection E as <- <-. unfold call_ok, rem. rewrite (decode_app _ (sock_bytes sock) _ _ D).
    split; [reflexivity|]. split; [|reflexivity]. unfold live. cbn [f_errored f_eof f_readable f_buf]. split; [reflexivity|].
    destruct L as [(A & _ & C)|(A & _ & C)]; [left|right]; auto.
Qed.

Lemma call_next : forall sock w x w' sock', live w sock -> framed_next w sock = (x, w', sock') ->
  call_ok (rem w sock) x w' sock'.
Proof.
  induction sock as [|r sock IH]; intros w x w' sock' L; cbn [framed_next];
    (destruct (framed_decode w) as [[y v]|] eqn:D; [intros E; injection E as <- <- <-; apply call_decoded; assumption|]).
  - exfalso. destruct L as [Er [(A & B & cs & _ & C)|(A & B & _)]].
    + destruct cs; discriminate C.
    + unfold framed_decode in D. rewrite Er, A, B in D. destruct (amsg_decode _); try discriminate. destruct (f_buf w); discriminate.
  - destruct L as [Er [(A & B & cs & F & C)|(A & B & C)]]; [|discriminate].
    destruct cs as [|c cs]; cbn [map app] in C; injection C as -> ->.
    + rewrite A. intros E.
      apply IH in E; [exact E|]. split; [reflexivity|]. right. repeat split.
    + inversion F as [|? ? N F']; subst. destruct c as [|c0 c]; [contradiction|]. intros E.
      apply IH in E.
      * unfold rem in *. cbn [f_buf sock_bytes flat_map] in *. rewrite <- app_assoc in E. exact E.
      * split; [reflexivity|]. left. split; [reflexivity|]. split; [left; reflexivity|]. exists cs. split; [exact F'|reflexivity].
Qed.

Lemma frames_then_end_gen : forall ms b rest w sock, parsed b ms rest -> live w sock -> rem w sock = b ->
  (forall m r, amsg_decode rest <> DMsg m r) ->
  nexts (S (length ms)) w sock = map FItem ms ++ [last_of rest].
Proof.
  induction ms as [|m ms IH]; intros b rest w sock P L R N; cbn [length].
  - inversion P; subst. cbn [nexts map app]. destruct (framed_next w sock) as [[x w'] s'] eqn:E.
    apply call_next in E; [|exact L]. unfold call_ok in E.
    destruct (amsg_decode (rem w sock)) eqn:D; try (rewrite E; reflexivity). exfalso. exact (N _ _ eq_refl).
  - inversion P as [|? ? r ? ? D P']; subst. remember (S (length ms)) as k. cbn [nexts map app].
    destruct (framed_next w sock) as [[x w'] s'] eqn:E. apply call_next in E; [|exact L]. unfold call_ok in E.
    rewrite D in E. destruct E as (-> & L' & R'). subst k. f_equal. exact (IH _ _ _ _ P' L' R' N).
Qed.

Lemma frames_then_end chunks ms rest : Forall (fun c : bytes => c <> []) chunks -> wf_bytes (concat chunks) ->
  reads (concat chunks) ms rest -> (forall m r, frame_reading rest <> DMsg m r) ->
  nexts (S (length ms)) framed_new (map SData chunks ++ [SData []]) =
    map FItem ms ++ [match rest with [] => FEnd | _ => FError end].
Proof.
  intros F W R N. pose proof (reads_parsed _ _ _ W R) as P. destruct (parsed_reads _ _ _ W P) as [_ Wr].
  apply (frames_then_end_gen ms (concat chunks)); [exact P| | |].
  - split; [reflexivity|]. left. split; [reflexivity|]. split; [right; reflexivity|]. exists chunks. auto.
  - unfold rem. cbn [framed_new f_buf app]. apply sock_chunks.
  - intros m r. rewrite (decode_eq_reading _ Wr). apply N.
Qed.
