(** The log of the CA certificates. *)
From Coq Require Import String NArith List Bool.
From Verif.Model Require Import Bytes Storage Logger Journal CaLog.
From Verif.Spec Require Import StorageSpec CaLogSpec.
From Verif.Proofs Require Import StoragePf.
Import ListNotations.
Local Open Scope N_scope.

Section CaLog.
  Context {file cert : Type}.
  Variable pem : file -> list cert * bool.

  Fixpoint node_rect' (P : node file -> Prop) (F : forall name f, P (NFile name f)) (D : forall l, Forall P l -> P (NDir l)) (B : P NBad) (n : node file) : P n :=
    match n with
    | NFile name f => F name f
    | NDir l => D l ((fix go (l : list (node file)) : Forall P l := match l with [] => Forall_nil P | x :: r => Forall_cons x (node_rect' P F D B x) (go r) end) l)
    | NBad => B
    end.

  Lemma ok_fine : forall n, snd (load_ca pem n) = true -> fine pem n.
  Proof.
    induction n as [name f|l IH|] using node_rect'; intros H.
    - split; [intros U; inversion U|]. intros name' f' B N. inversion B; subst. apply named_spec in N. cbn [load_ca] in H. now rewrite N in H.
    - assert (A : Forall (fun x => snd (load_ca pem x) = true) l).
      { clear IH. revert H. induction l as [|x r IHr]; intros H; [constructor|]. rewrite load_dir_cons in H.
        destruct (load_ca pem x) as [c ok] eqn:E. destruct ok; [|discriminate]. destruct (load_ca pem (NDir r)) as [c' ok'] eqn:E'.
        constructor; [now rewrite E|]. apply IHr. exact H. }
      rewrite Forall_forall in IH, A. split.
      + intros U. inversion U as [|? x I U']; subst. exact (proj1 (IH x I (A x I)) U').
      + intros name f B N. inversion B as [|? x ? ? I B']; subst. exact (proj2 (IH x I (A x I)) name f B' N).
    - discriminate.
  Qed.
  Lemma told : forall l, ca_told pem l (ca_log pem l).
  Proof.
    induction l as [|g l IH]; [constructor|]. cbn [ca_log]. destruct (snd (load_ca pem (v_node g))) eqn:E.
    - apply told_fine; [now apply ok_fine|exact IH].
    - replace (ca_rec (v_shown g) (v_err g)) with (no_certs g) by (unfold ca_rec, no_certs, say; cbn [List.concat]; rewrite app_nil_r; reflexivity).
      cbn [app]. apply told_bad; [|exact IH]. intros F. apply load_complete in F as [F _]. congruence.
  Qed.
  Lemma quiet_fine : forall l, ca_log pem l = [] -> forall g, In g l -> fine pem (v_node g).
  Proof.
    induction l as [|g l IH]; intros H x I; [contradiction|]. cbn [ca_log] in H. apply app_eq_nil in H as [H1 H2].
    destruct I as [<-|I]; [|exact (IH H2 x I)]. apply ok_fine. destruct (snd _); [reflexivity|discriminate].
  Qed.
  Lemma quiet_trusted : forall l, ca_log pem l = [] -> forall g name f c, In g l -> below (v_node g) name f -> named name -> In c (fst (pem f)) ->
    In c (load_cas pem (map v_node l)).
  Proof.
    intros l H g name f c I B N C. apply (cas_complete _ _ pem (map v_node l) (v_node g) name f c); auto; [now apply in_map|]. exact (quiet_fine l H g I).
  Qed.
  Lemma not_named_silent : forall name f shown err, ~ named name ->
    ca_log pem [{| v_shown := shown; v_node := NFile name f; v_err := err |}] = [] /\ load_cas pem [NFile name f] = [].
  Proof.
    intros name f shown err N. cbn [ca_log v_node load_ca load_cas map fst]. unfold load_cas. cbn [map load_ca].
    destruct (is_cert_file name) eqn:E; [apply named_spec in E; contradiction|]. split; reflexivity.
  Qed.
End CaLog.
