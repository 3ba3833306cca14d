(** Loggers. *)
From Coq Require Import String NArith ZArith ZifyBool ZifyNat ZifyN List Bool Lia.
From Verif.Model Require Import Bytes Text Logger Loggers.
From Verif.Spec Require Import LoggersSpec.
From Verif.Spec Require LoggerSpec.
From Verif.Proofs Require Import DecFacts.
Import ListNotations.
Local Open Scope N_scope.

Lemma log_line_body e : log_line e = line_body e ++ [10].
Proof.
  unfold line_body. unfold log_line. rewrite !app_assoc. now rewrite removelast_last.
Qed.
Lemma body_shape e : line_body e = en_time e ++ [32] ++ pad7 (sev_name (en_sev e)) ++ lit " [" ++ en_file e ++ [58] ++ print_dec (en_line e) ++ lit "] " ++ en_msg e.
Proof.
  pose proof (log_line_body e) as H. unfold log_line in H. rewrite !app_assoc in H. apply app_inj_tail in H. destruct H as [H _]. rewrite <- H. now rewrite !app_assoc.
Qed.
Lemma digits_no c n : ~ (48 <= c <= 57) -> ~ In c (print_dec n).
Proof. intros H I. pose proof (dec_digits n) as D. rewrite Forall_forall in D. specialize (D _ I). unfold is_digit in D. lia. Qed.
Lemma name_no c s : c = 10 \/ c = 27 -> ~ In c (pad7 (sev_name s)).
Proof. intros H I. destruct s; vm_compute in I; repeat (destruct I as [I|I]; [destruct H; subst; discriminate|]); contradiction. Qed.
Lemma body_one_line e : one_line e -> ~ In 10 (line_body e).
Proof.
  intros [A [B C]]. rewrite body_shape, !in_app_iff. intros [H|[H|[H|[H|[H|[H|[H|[H|H]]]]]]]]; auto.
  - destruct H as [H|H]; [discriminate|contradiction].
  - apply name_no in H; auto.
  - vm_compute in H. repeat (destruct H as [H|H]; [discriminate|]); contradiction.
  - destruct H as [H|H]; [discriminate|contradiction].
  - apply digits_no in H; [auto|lia].
  - vm_compute in H. repeat (destruct H as [H|H]; [discriminate|]); contradiction.
Qed.
Lemma lines_one l : forall acc r, ~ In 10 l -> text_lines acc (l ++ 10 :: r) = (rev acc ++ l) :: text_lines [] r.
Proof.
  induction l as [|c l IH]; intros acc r N0; cbn [app text_lines]; [now rewrite app_nil_r|].
  destruct (N.eqb_spec c 10) as [->|X]; [exfalso; apply N0; now left|]. rewrite IH by (intros I; apply N0; now right). cbn [rev]. now rewrite <- app_assoc.
Qed.
Lemma lines_of_entries es : Forall one_line es -> text_lines [] (List.concat (map log_line es)) = map line_body es.
Proof.
  induction 1 as [|e es E F IH]; [reflexivity|]. cbn [map List.concat]. rewrite log_line_body, <- app_assoc. cbn [app]. rewrite lines_one by now apply body_one_line. now rewrite IH.
Qed.
Lemma forged e1 e2 : exists e, en_time e = en_time e1 /\ en_sev e = en_sev e1 /\ en_file e = en_file e1 /\ en_line e = en_line e1 /\ log_line e = log_line e1 ++ log_line e2.
Proof.
  exists {| en_time := en_time e1; en_sev := en_sev e1; en_file := en_file e1; en_line := en_line e1; en_msg := en_msg e1 ++ [10] ++ line_body e2 |}.
  do 4 (split; [reflexivity|]). rewrite (log_line_body e2). unfold log_line. cbn [en_time en_sev en_file en_line en_msg]. now rewrite <- !app_assoc.
Qed.
Lemma shown_plain s r : ~ In 27 s -> shown_text false (s ++ r) = s ++ shown_text false r.
Proof.
  induction s as [|c s IH]; intros N0; [reflexivity|]. cbn [app shown_text]. destruct (N.eqb_spec c 27) as [->|X]; [exfalso; apply N0; now left|].
  rewrite IH; [reflexivity|]. intros I. apply N0. now right.
Qed.
Lemma pretty_shown e : ~ In 27 (line_body e) -> shown_text false (stderr_text true e) = stderr_text false e.
Proof.
  intros N0. unfold stderr_text. rewrite log_line_body. cbn [app shown_text]. change (27 =? 27) with true. cbv iota. change (negb (91 =? 109)) with true.
  assert (C : forall r, shown_text true (color (en_sev e) ++ 109 :: r) = shown_text false r) by (intros r; destruct (en_sev e); reflexivity).
  rewrite C. rewrite shown_plain by exact N0. reflexivity.
Qed.
Lemma color_injective s s' e e' : stderr_text true e = stderr_text true e' -> en_sev e = s -> en_sev e' = s' -> s = s'.
Proof. unfold stderr_text. intros H <- <-. destruct (en_sev e), (en_sev e'); try reflexivity; discriminate H. Qed.

Lemma escape_clean s : ~ In 0 (escape_nul s).
Proof.
  unfold escape_nul. rewrite in_flat_map. intros [c [_ H]]. destruct (N.eqb_spec c 0); cbn [In] in H; repeat (destruct H as [H|H]; [try discriminate; congruence|]); contradiction.
Qed.
Lemma escape_same s : ~ In 0 s -> escape_nul s = s.
Proof.
  unfold escape_nul. induction s as [|c s IH]; intros N0; [reflexivity|]. cbn [flat_map]. destruct (N.eqb_spec c 0) as [->|X]; [exfalso; apply N0; now left|].
  cbn [app]. f_equal. apply IH. intros I. apply N0. now right.
Qed.
Lemma syslog_shape e : snd (fst (syslog_call e)) = lit "%s" /\ ~ In 0 (snd (syslog_call e)) /\
  (~ In 0 (en_file e) -> ~ In 0 (en_msg e) -> snd (syslog_call e) = lit "[" ++ en_file e ++ lit ":" ++ print_dec (en_line e) ++ lit "] " ++ en_msg e).
Proof.
  split; [reflexivity|]. split; [apply escape_clean|]. intros A B. unfold syslog_call. cbn [snd]. rewrite escape_same; [reflexivity|].
  rewrite !in_app_iff. intros [H|[H|[H|[H|[H|H]]]]]; auto.
  - destruct H as [H|H]; [discriminate|contradiction].
  - destruct H as [H|H]; [discriminate|contradiction].
  - apply digits_no in H; [auto|lia].
  - vm_compute in H. repeat (destruct H as [H|H]; [discriminate|]); contradiction.
Qed.

(** Handles *)
Definition level_of_all (s : severity) (d : list nat) (l : handles) : Prop :=
  (forall h, In h d -> (h < length (lh_levels l))%nat) /\ (forall h, In h d -> get_level l h = s).
Lemma clone_level l h x : (x < length (lh_levels l))%nat -> get_level (fst (clone l h)) x = get_level l x.
Proof. intros L. unfold get_level, clone. cbn [fst lh_backend lh_shared lh_levels]. destruct (shared _); [reflexivity|]. now rewrite app_nth1. Qed.
Lemma clone_new l h : get_level (fst (clone l h)) (snd (clone l h)) = get_level l h.
Proof. unfold get_level, clone. cbn [fst snd lh_backend lh_shared lh_levels]. destruct (shared _); [reflexivity|]. now rewrite app_nth2, Nat.sub_diag by lia. Qed.
Lemma clones_levels s : forall os d l, level_of_all s d l -> Forall (fun o => match o with HClone _ => True | _ => False end) os ->
  forall h, In h (descends os (length (lh_levels l)) d) -> get_level (fold_left hstep os l) h = s.
Proof.
  induction os as [|o os IH]; intros d l [L G] F h; cbn [descends fold_left]; [apply G|].
  destruct o as [x|]; [|apply Forall_inv in F; contradiction]. apply Forall_inv_tail in F. cbn [hstep]. intros I.
  refine (IH (if existsb (Nat.eqb x) d then length (lh_levels l) :: d else d) _ _ F h _).
  - assert (LL : length (lh_levels (fst (clone l x))) = S (length (lh_levels l))) by (cbn; rewrite app_length; cbn; lia).
    assert (OLD : forall y, In y d -> (y < length (lh_levels (fst (clone l x))))%nat /\ get_level (fst (clone l x)) y = s).
    { intros y Y. split; [specialize (L y Y); lia|]. rewrite clone_level by auto. auto. }
    destruct (existsb (Nat.eqb x) d) eqn:E.
    + apply existsb_exists in E. destruct E as [y [Y EY]]. apply Nat.eqb_eq in EY. subst y.
      split; intros y [<-|Y']; try (apply OLD; assumption); [lia|]. rewrite <- (G x Y). apply clone_new.
    + split; intros y Y; apply OLD; exact Y.
  - replace (length (lh_levels (fst (clone l x)))) with (S (length (lh_levels l))) by (cbn; rewrite app_length; cbn; lia). exact I.
Qed.
Lemma config_levels b (v : bool) : level_of_all (if v then DEBUG else first_level b) [0%nat] (config_logger b v).
Proof. split; intros h [<-|[]]; destruct b, v; vm_compute; auto. Qed.
Lemma config_clones b (v : bool) os h : Forall (fun o => match o with HClone _ => True | _ => False end) os ->
  In h (descends os 2 [0%nat]) -> get_level (fold_left hstep os (config_logger b v)) h = if v then DEBUG else first_level b.
Proof.
  intros F I. apply (clones_levels _ os [0%nat]); [apply config_levels|exact F|]. replace (length (lh_levels (config_logger b v))) with 2%nat by (destruct v, b; reflexivity). exact I.
Qed.
Lemma storage_level b (v : bool) : get_level (config_logger b v) 1 = match b with BFile => if v then DEBUG else INFO | _ => first_level b end.
Proof. destruct b, v; reflexivity. Qed.

Lemma shape_exact e : log_line e = shape e ++ [10].
Proof.
  unfold log_line, shape. assert (pad7 (sev_name (en_sev e)) = severity_column (en_sev e)) as -> by (destruct (en_sev e); reflexivity).
  change (lit " "%string) with [32]. change (lit ":"%string) with [58]. now rewrite !app_assoc.
Qed.
Lemma pretty_exact e : stderr_text true e = [27] ++ color_code (en_sev e) ++ shape e ++ [27] ++ lit "[m"%string ++ [10].
Proof.
  pose proof (shape_exact e) as H. rewrite log_line_body in H. apply app_inj_tail in H. destruct H as [H _].
  unfold stderr_text. rewrite H. destruct (en_sev e); reflexivity.
Qed.
Lemma escape_escaped d : escaped d (escape_nul d).
Proof.
  induction d as [|c d IH]; [constructor|]. unfold escape_nul in *. cbn [flat_map]. destruct (N.eqb_spec c 0) as [->|X]; [exact (Esc_nul _ _ IH)|constructor; assumption].
Qed.
Lemma syslog_exact e : fst (fst (syslog_call e)) = syslog_level (en_sev e) /\
  escaped (lit "["%string ++ en_file e ++ lit ":"%string ++ print_dec (en_line e) ++ lit "] "%string ++ en_msg e) (snd (syslog_call e)).
Proof. split; [unfold syslog_call; destruct (en_sev e); reflexivity|]. apply escape_escaped. Qed.

Lemma written_iff (l : handles) (h : nat) (e : entry) :
  writes l h e = true <-> lh_backend l <> BNone /\ LoggerSpec.sev_code (get_level l h) <= LoggerSpec.sev_code (en_sev e).
Proof.
  unfold writes. destruct (lh_backend l) eqn:B.
  1: split; [discriminate|intros [H _]; congruence].
  all: destruct (get_level l h), (en_sev e); vm_compute; split; intros H; try (split; congruence); try tauto; try discriminate; try reflexivity; destruct H as [_ H]; congruence.
Qed.
