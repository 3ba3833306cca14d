(** Facts about association lists. *)
From Coq Require Import NArith List Bool Lia.
From Verif.Model Require Import Alist.
Import ListNotations.
Local Open Scope N_scope.

Section Facts.
  Context {V : Type}.
  Implicit Type l : list (N * V).

  Lemma alookup_insert k v l k' : alookup k' (ainsert k v l) = if N.eqb k' k then Some v else alookup k' l.
  Proof.
    induction l as [|[a b] l IH]; cbn [ainsert alookup].
    - destruct (N.eqb k' k); reflexivity.
    - destruct (N.eqb_spec k a) as [->|Hk]; cbn [alookup].
      + destruct (N.eqb k' a); reflexivity.
      + rewrite IH. destruct (N.eqb_spec k' a), (N.eqb_spec k' k); congruence.
  Qed.

  Lemma alookup_remove k l k' : alookup k' (aremove k l) = if N.eqb k' k then None else alookup k' l.
  Proof.
    unfold aremove. induction l as [|[a b] l IH]; cbn [filter alookup fst].
    - destruct (N.eqb k' k); reflexivity.
    - destruct (N.eqb_spec k a) as [->|Hk]; cbn [negb alookup].
      + rewrite IH. destruct (N.eqb k' a); reflexivity.
      + rewrite IH. destruct (N.eqb_spec k' a), (N.eqb_spec k' k); congruence.
  Qed.

  Lemma insert_same k v l : alookup k (ainsert k v l) = Some v.
  Proof. rewrite alookup_insert. now rewrite N.eqb_refl. Qed.
  Lemma insert_other k v l k' : k' <> k -> alookup k' (ainsert k v l) = alookup k' l.
  Proof. intros H. rewrite alookup_insert. apply N.eqb_neq in H. now rewrite H. Qed.
  Lemma remove_same k l : alookup k (aremove k l) = None.
  Proof. rewrite alookup_remove. now rewrite N.eqb_refl. Qed.
  Lemma remove_other k l k' : k' <> k -> alookup k' (aremove k l) = alookup k' l.
  Proof. intros H. rewrite alookup_remove. apply N.eqb_neq in H. now rewrite H. Qed.

  Lemma alookup_in k v l : alookup k l = Some v -> In (k, v) l.
  Proof.
    induction l as [|[a b] l IH]; cbn [alookup]; [discriminate|].
    destruct (N.eqb_spec k a) as [->|]; [intros [= ->]; now left|right; auto].
  Qed.
End Facts.
