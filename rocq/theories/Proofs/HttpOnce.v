(** A body decoder returns at most one body. *)
From Coq Require Import NArith ZArith List Bool Lia ZifyBool ZifyNat ZifyN.
From Verif.Model Require Import Bytes Utf8 Text Http.
Import ListNotations.
Local Open Scope N_scope.

Lemma trailer_done f maxlen s data b s' rest :
  trailer_loop f maxlen s data = Item b s' rest -> cd_state s' = CCompleted.
Proof.
  revert s data. induction f as [|f IH]; intros s data E; cbn in E; [discriminate|].
  destruct (line_decode crlf maxlen (cd_buf s) data) as [l buf r|buf r| |]; try discriminate.
  destruct l as [|x l]; [injection E; intros; subst; reflexivity|exact (IH _ _ E)].
Qed.

Lemma step_done bits maxlen ignore s data b s' rest :
  chunked_step bits maxlen ignore s data = Item b s' rest -> cd_state s' = CCompleted.
Proof.
  unfold chunked_step. destruct (cd_state s); intro E; try discriminate.
  - destruct (line_decode crlf maxlen (cd_buf s) data) as [l buf r|buf r| |]; try discriminate.
    destruct (parse_uint 16 _ _); discriminate.
  - destruct (line_decode crlf maxlen (cd_buf s) data) as [l buf r|buf r| |]; discriminate.
  - exact (trailer_done _ _ _ _ _ _ _ E).
Qed.

Lemma loop_done f bits maxlen ignore s data b s' rest :
  chunked_loop bits f maxlen ignore s data = Item b s' rest -> cd_state s' = CCompleted.
Proof.
  revert s data. induction f as [|f IH]; intros s data E; destruct data as [|x data]; cbn [chunked_loop] in E; try discriminate.
  destruct (chunked_step bits maxlen ignore s (x :: data)) as [l s1 r|s1 r| |] eqn:E1; try discriminate.
  - injection E; intros; subst. exact (step_done _ _ _ _ _ _ _ _ E1).
  - exact (IH _ _ E).
Qed.

Lemma completed_decode bits maxlen ignore s data :
  cd_state s = CCompleted -> chunked_decode bits maxlen ignore s data = match data with [] => More s [] | _ => Fail end.
Proof.
  intro H. unfold chunked_decode. destruct data as [|x data]; [reflexivity|].
  cbn [chunked_loop length]. unfold chunked_step. rewrite H. reflexivity.
Qed.
Lemma completed_eof bits maxlen ignore s data :
  cd_state s = CCompleted -> chunked_decode_eof bits maxlen ignore s data = Fail.
Proof.
  intro H. unfold chunked_decode_eof. rewrite completed_decode by exact H. destruct data; [rewrite H|]; reflexivity.
Qed.

Lemma spent_decode ignore s data b s' rest : fd_body s = None -> fixed_decode ignore s data <> Item b s' rest.
Proof. intro H. unfold fixed_decode. rewrite H. destruct (0 <? _); discriminate. Qed.
Lemma spent_eof ignore s data b s' rest : fd_body s = None -> fixed_decode_eof ignore s data <> Item b s' rest.
Proof.
  intro H. unfold fixed_decode_eof, fixed_decode. rewrite H. destruct (0 <? _); cbn; discriminate.
Qed.
Lemma fixed_spent ignore s data b s' rest : fixed_decode ignore s data = Item b s' rest -> fd_body s' = None.
Proof.
  unfold fixed_decode. destruct (0 <? _); [discriminate|]. destruct (fd_body s); [|discriminate].
  intro E. injection E. intros. subst. reflexivity.
Qed.
Lemma fixed_spent_eof ignore s data b s' rest : fixed_decode_eof ignore s data = Item b s' rest -> fd_body s' = None.
Proof.
  unfold fixed_decode_eof. destruct (fixed_decode ignore s data) as [l s1 r|s1 r| |] eqn:E1; try discriminate.
  - intro E. injection E. intros. subst. exact (fixed_spent _ _ _ _ _ _ E1).
  - destruct (fd_body s1); [|discriminate]. intro E. injection E. intros. subst. reflexivity.
Qed.

Lemma body_once bits maxlen ignore d data b d' rest :
  (forall t, d <> DSimple t) ->
  body_decode bits maxlen ignore d data = Item b d' rest \/ body_decode_eof bits maxlen ignore d data = Item b d' rest ->
  forall data' b' d'' rest',
    body_decode bits maxlen ignore d' data' <> Item b' d'' rest' /\ body_decode_eof bits maxlen ignore d' data' <> Item b' d'' rest'.
Proof.
  intros Hs H data' b' d'' rest'. destruct d as [t|d|d]; [now destruct (Hs t)| |].
  - assert (X : exists e, d' = DFixed e /\ fd_body e = None).
    { destruct H as [H|H]; cbn [body_decode body_decode_eof] in H.
      - destruct (fixed_decode ignore d data) as [l s1 r|s1 r| |] eqn:E1; cbn in H; try discriminate.
        injection H. intros. subst. exists s1. split; [reflexivity|exact (fixed_spent _ _ _ _ _ _ E1)].
      - destruct (fixed_decode_eof ignore d data) as [l s1 r|s1 r| |] eqn:E1; cbn in H; try discriminate.
        injection H. intros. subst. exists s1. split; [reflexivity|exact (fixed_spent_eof _ _ _ _ _ _ E1)]. }
    destruct X as (e & -> & He). cbn. split.
    + destruct (fixed_decode ignore e data') as [l s1 r|s1 r| |] eqn:E1; cbn; try discriminate. now destruct (spent_decode _ _ _ _ _ _ He E1).
    + destruct (fixed_decode_eof ignore e data') as [l s1 r|s1 r| |] eqn:E1; cbn; try discriminate. now destruct (spent_eof _ _ _ _ _ _ He E1).
  - assert (X : exists e, d' = DChunked e /\ cd_state e = CCompleted).
    { destruct H as [H|H]; cbn [body_decode body_decode_eof] in H.
      - destruct (chunked_decode bits maxlen ignore d data) as [l s1 r|s1 r| |] eqn:E1; cbn in H; try discriminate.
        injection H. intros. subst. exists s1. split; [reflexivity|exact (loop_done _ _ _ _ _ _ _ _ _ E1)].
      - unfold chunked_decode_eof in H.
        destruct (chunked_decode bits maxlen ignore d data) as [l s1 r|s1 r| |] eqn:E1; cbn in H; try discriminate.
        + injection H. intros. subst. exists s1. split; [reflexivity|exact (loop_done _ _ _ _ _ _ _ _ _ E1)].
        + destruct (cd_state s1); cbn in H; try discriminate; injection H; intros; subst; eexists; (split; [reflexivity|reflexivity]). }
    destruct X as (e & -> & He). cbn [body_decode body_decode_eof]. rewrite (completed_decode _ _ _ _ _ He), (completed_eof _ _ _ _ _ He).
    destruct data'; cbn; split; discriminate.
Qed.
