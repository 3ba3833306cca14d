(** What the log says. *)
From Coq Require Import String ZArith NArith List Permutation Bool Lia ZifyBool ZifyNat ZifyN.
From Verif.Model Require Import Bytes Text Alist Frame Service Control Session Manager Client MainTask Logger Journal.
From Verif.Spec Require Import ControlSpec TextSpec NumeralSpec JournalSpec.
From Verif.Proofs Require Import AlistFacts TableJsonPf DecFacts NumeralPf ManagerProofs ClientInv.
Import ListNotations.
Local Open Scope N_scope.

(** ** Numbers *)
Lemma hex_val d : d < 16 -> digit_val 16 (hex_digit d) = Some d.
Proof.
  intros H. unfold hex_digit, digit_val. destruct (d <? 10) eqn:E.
  - replace ((48 <=? 48 + d) && (48 + d <=? 57)) with true by lia. replace (48 + d - 48) with d by lia. replace (d <? 16) with true by lia. reflexivity.
  - replace ((48 <=? 87 + d) && (87 + d <=? 57)) with false by lia. replace ((97 <=? 87 + d) && (87 + d <=? 122)) with true by lia.
    replace (87 + d - 87) with d by lia. replace (d <? 16) with true by lia. reflexivity.
Qed.
Lemma hex_fuel : forall f n, n < 2 ^ N.of_nat f ->
  digits_val 16 (print_hex_fuel (S f) n) 0 = Some n /\ print_hex_fuel (S f) n <> [] /\ (forall r, print_hex_fuel (S f) n = 48 :: r -> r = [] /\ n = 0).
Proof.
  induction f as [|f IH]; intros n H.
  - change (2 ^ N.of_nat 0) with 1 in H. assert (n = 0) by lia. subst n. split; [reflexivity|split; [discriminate|]]. intros r E. injection E as <-. auto.
  - rewrite Nat2N.inj_succ, N.pow_succ_r' in H. remember (S f) as g. cbn [print_hex_fuel]. destruct (n <? 16) eqn:E.
    + split; [|split; [discriminate|]].
      * cbn [digits_val]. rewrite hex_val by lia. reflexivity.
      * intros r E1. injection E1 as E1 <-. split; [reflexivity|]. unfold hex_digit in E1. destruct (n <? 10) eqn:E2; lia.
    + destruct (IH (n / 16)) as (B & C & D).
      { apply N.div_lt_upper_bound; lia. }
      assert (M : n mod 16 < 16) by (apply N.mod_lt; lia). pose proof (N.div_mod n 16) as Q. generalize dependent (n mod 16). generalize dependent (n / 16). intros q B C D m Hm Q.
      split; [|split].
      * rewrite digits_val_app, B. cbn [digits_val]. rewrite hex_val by assumption. f_equal. lia.
      * intros X. now apply app_eq_nil in X as [_ X].
      * intros r E1. destruct (print_hex_fuel g q) as [|b t] eqn:F; [congruence|]. injection E1 as -> E1. destruct (D t eq_refl) as [_ Z]. lia.
Qed.
Lemma hex_fine n : numeral 16 (print_hex n) n /\ (forall r, print_hex n = 48 :: r -> r = []).
Proof.
  destruct (hex_fuel _ _ (size_bound n)) as (A & B & C). split; [apply numeral_iff; [lia|]; split; assumption|]. intros r E. now apply C.
Qed.
Lemma zeros_val r k s : 0 < r -> digits_val r (repeat 48 k ++ s) 0 = digits_val r s 0.
Proof.
  intros H. assert (D : digit_val r 48 = Some 0) by (unfold digit_val; change ((48 <=? 48) && (48 <=? 57)) with true; change (48 - 48) with 0; cbv iota; replace (0 <? r) with true by lia; reflexivity).
  induction k as [|k IH]; [reflexivity|]. cbn [repeat app digits_val]. rewrite D, N.mul_0_l. exact IH.
Qed.
Lemma fill_filled radix w n s : (0 < w)%nat -> 0 < radix <= 36 -> numeral radix s n -> (forall r, s = 48 :: r -> r = []) -> filled radix w n (fill 48 w s).
Proof.
  intros W R H Z. apply numeral_iff in H as [H1 H2]; [|lia]. unfold filled, fill. split; [|split].
  - apply numeral_iff; [lia|]. split; [intros X; apply app_eq_nil in X as [_ X]; auto|]. rewrite zeros_val by lia. exact H2.
  - rewrite app_length, repeat_length. lia.
  - intros r E. destruct (w - length s)%nat as [|k] eqn:K.
    + cbn [repeat app] in E. rewrite (Z r E). cbn [length]. lia.
    + cbn [repeat app] in E. injection E as <-. rewrite app_length, repeat_length. lia.
Qed.
Lemma hexw_filled w n : (0 < w)%nat -> filled 16 w n (hexw w n).
Proof. intros H. destruct (hex_fine n) as [A B]. apply fill_filled; auto. lia. Qed.
Lemma filled_same radix w n n' s : radix <= 36 -> filled radix w n s -> filled radix w n' s -> n = n'.
Proof. intros R [A _] [B _]. apply numeral_iff in A as [_ A]; [|lia]. apply numeral_iff in B as [_ B]; [|lia]. congruence. Qed.
Lemma digits_are r s : forall acc v, digits_val r s acc = Some v -> Forall (fun c => digit_val r c <> None) s.
Proof.
  induction s as [|c s IH]; intros acc v; cbn [digits_val]; [constructor|]. destruct (digit_val r c) eqn:E; [|discriminate]. intros H. constructor; [congruence|eauto].
Qed.
Lemma filled_chars radix w n s c : radix <= 36 -> filled radix w n s -> digit_val radix c = None -> ~ In c s.
Proof.
  intros R [A _] D I. apply numeral_iff in A as [_ A]; [|lia]. apply digits_are in A. rewrite Forall_forall in A. exact (A c I D).
Qed.

(** ** Reading texts *)
Lemma last_part c (a b a' b' : bytes) : a ++ c :: b = a' ++ c :: b' -> ~ In c b -> ~ In c b' -> b = b'.
Proof.
  revert a'. induction a as [|x a IH]; intros [|y a'] E H H'; cbn [app] in E.
  - congruence.
  - injection E as _ E. exfalso. apply H. rewrite E. apply in_app_iff. right. left. reflexivity.
  - injection E as _ E. exfalso. apply H'. rewrite <- E. apply in_app_iff. right. left. reflexivity.
  - injection E as _ E. eauto.
Qed.
Lemma first_part c (a b a' b' : bytes) : a ++ c :: b = a' ++ c :: b' -> ~ In c a -> ~ In c a' -> a = a'.
Proof.
  revert a'. induction a as [|x a IH]; intros [|y a'] E H H'; cbn [app] in E.
  - reflexivity.
  - injection E as E _. exfalso. apply H'. left. congruence.
  - injection E as E _. exfalso. apply H. left. congruence.
  - injection E as -> E. f_equal. apply (IH a' E); intros X; [apply H|apply H']; now right.
Qed.

Section Sessions.
  Variable aprint : saddr -> bytes.
  Definition opens (sid : N) (r : jrec) : Prop := exists a svc, opening aprint a svc sid r.

  Lemma opening_own a svc sid : opening aprint a svc sid (opening_rec aprint a svc sid).
  Proof.
    exists (hexw 4 svc), (hexw 6 sid). split; [apply hexw_filled; lia|]. split; [apply hexw_filled; lia|]. split; [reflexivity|].
    unfold opening_rec, say. cbn [j_text List.concat]. rewrite app_nil_r, <- ?app_assoc. reflexivity.
  Qed.
  Lemma closing_own sid : ending sid (closing_rec sid).
  Proof. exists (hexw 6 sid). split; [apply hexw_filled; lia|]. left. split; [reflexivity|]. unfold closing_rec, say. cbn [j_text List.concat]. now rewrite app_nil_r. Qed.
  Lemma closed_own sid : ending sid (closed_rec sid).
  Proof. exists (hexw 6 sid). split; [apply hexw_filled; lia|]. right. left. split; [reflexivity|]. unfold closed_rec, say. cbn [j_text List.concat]. now rewrite app_nil_r. Qed.
  Lemma error_own sid err : ending sid (error_rec sid err).
  Proof.
    exists (hexw 6 sid). split; [apply hexw_filled; lia|]. right. right. split; [reflexivity|]. exists err. unfold error_rec, say. cbn [j_text List.concat].
    rewrite app_nil_r, <- ?app_assoc. reflexivity.
  Qed.

  Lemma opening_id a svc sid a' svc' sid' r : opening aprint a svc sid r -> opening aprint a' svc' sid' r -> sid = sid'.
  Proof.
    intros (x & y & _ & Y & _ & T) (x' & y' & _ & Y' & _ & T'). rewrite T in T'. clear T.
    change (lit ", session ID: "%string) with (lit ", session ID:"%string ++ [32]) in T'. rewrite !app_assoc in T'.
    rewrite <- !(app_assoc _ [32]) in T'. cbn [app] in T'. apply last_part in T'.
    - subst y'. eapply filled_same; [|eassumption|eassumption]. lia.
    - eapply filled_chars; [|eassumption|reflexivity]. lia.
    - eapply filled_chars; [|eassumption|reflexivity]. lia.
  Qed.
  Ltac differ T := exfalso; revert T; cbv [lit String.list_ascii_of_string Ascii.N_of_ascii]; cbn [map app]; discriminate.
  Lemma ending_id sid sid' r : ending sid r -> ending sid' r -> sid = sid'.
  Proof.
    intros (y & Y & [[S T]|[[S T]|[S [err T]]]]) (y' & Y' & [[S' T']|[[S' T']|[S' [err' T']]]]); rewrite S in S'; try discriminate; rewrite T in T'.
    - apply app_inv_head in T'. subst y'. eapply filled_same; [|eassumption|eassumption]. lia.
    - discriminate.
    - discriminate.
    - apply app_inv_head in T'. subst y'. eapply filled_same; [|eassumption|eassumption]. lia.
    - apply app_inv_head in T'. change (lit ": "%string) with ([58; 32]) in T'. cbn [app] in T'. apply first_part in T'.
      + subst y'. eapply filled_same; [|eassumption|eassumption]. lia.
      + eapply filled_chars; [|eassumption|reflexivity]. lia.
      + eapply filled_chars; [|eassumption|reflexivity]. lia.
  Qed.
  Lemma not_both sid sid' r : opens sid r -> ending sid' r -> False.
  Proof.
    intros (a & svc & x & y & _ & _ & S & T) (y' & Y' & [[S' T']|[[S' T']|[S' [err' T']]]]); rewrite S in S'; try discriminate; rewrite T in T'; discriminate.
  Qed.

  (** Records that are neither *)
  Definition silent (r : jrec) : Prop := (forall sid, ~ opens sid r) /\ (forall sid, ~ ending sid r).
  Lemma silent_debug r : j_sev r = DEBUG -> silent r.
  Proof.
    intros H. split; intros sid.
    - intros (a & svc & x & y & _ & _ & S & _). congruence.
    - intros (y & _ & [[S _]|[[S _]|[S _]]]); congruence.
  Qed.
  Lemma silent_hup sid code : silent (hup_rec sid code).
  Proof. apply silent_debug. reflexivity. Qed.
  Lemma silent_rejected l : silent (rejected_rec l).
  Proof.
    split; intros sid.
    - intros (a & svc & x & y & _ & _ & S & _). discriminate.
    - intros (y & _ & [[S _]|[[S _]|[_ [err T]]]]); discriminate.
  Qed.

  (** ** What is open according to the log *)
  Notation shown := (shown_open aprint).
  Lemma shown_nil sid : ~ shown [] sid.
  Proof. intros (j1 & r & j2 & a & svc & E & _). now destruct j1. Qed.
  Lemma shown_snoc j r sid : shown (j ++ [r]) sid <-> opens sid r \/ shown j sid /\ ~ ending sid r.
  Proof.
    split.
    - intros (j1 & x & j2 & a & svc & E & O & F). destruct j2 as [|z j2] using rev_ind.
      + apply app_inj_tail in E as [-> ->]. left. exists a, svc. exact O.
      + change (j1 ++ x :: j2 ++ [z]) with (j1 ++ (x :: j2) ++ [z]) in E. rewrite app_assoc in E. apply app_inj_tail in E as [-> ->].
        apply Forall_app in F as [F1 F2]. inversion F2; subst. right. split; [|assumption]. exists j1, x, j2, a, svc. auto.
    - intros [(a & svc & O)|[(j1 & x & j2 & a & svc & -> & O & F) H]].
      + exists j, r, [], a, svc. auto.
      + exists j1, x, (j2 ++ [r]), a, svc. split; [now rewrite <- app_assoc|]. split; [assumption|]. apply Forall_app. split; [assumption|]. constructor; auto.
  Qed.
  Lemma shown_silent j r sid : silent r -> shown (j ++ [r]) sid <-> shown j sid.
  Proof. intros [A B]. rewrite shown_snoc. pose proof (A sid). pose proof (B sid). tauto. Qed.

  (** Every record comes at its time *)
  Definition timely (j : list jrec) : Prop :=
    forall j1 r j2 sid, j = j1 ++ r :: j2 -> (opens sid r -> ~ shown j1 sid) /\ (ending sid r -> shown j1 sid).
  Lemma timely_nil : timely [].
  Proof. intros j1 r j2 sid E. now destruct j1. Qed.
  Lemma timely_snoc j r : timely j -> (forall sid, opens sid r -> ~ shown j sid) -> (forall sid, ending sid r -> shown j sid) -> timely (j ++ [r]).
  Proof.
    intros T A B j1 x j2 sid E. destruct j2 as [|z j2] using rev_ind.
    - apply app_inj_tail in E as [-> ->]. split; auto.
    - change (j1 ++ x :: j2 ++ [z]) with (j1 ++ (x :: j2) ++ [z]) in E. rewrite app_assoc in E. apply app_inj_tail in E as [-> ->]. eapply T; reflexivity.
  Qed.
  Lemma timely_silent j r : timely j -> silent r -> timely (j ++ [r]).
  Proof. intros T [A B]. apply timely_snoc; [assumption| |]; intros sid H; exfalso; [eapply A|eapply B]; eassumption. Qed.

  (** ** The session manager *)
  Definition agrees (j : list jrec) (g : mgr) : Prop := timely j /\ forall sid, shown j sid <-> find_sess g sid <> None.

  Lemma agrees_silent j g g' r : agrees j g -> silent r -> (forall sid, find_sess g' sid <> None <-> find_sess g sid <> None) -> agrees (j ++ [r]) g'.
  Proof. intros [T A] S H. split; [now apply timely_silent|]. intros sid. rewrite shown_silent by assumption. rewrite A, H. reflexivity. Qed.
  Lemma agrees_same j g g' : agrees j g -> (forall sid, find_sess g' sid <> None <-> find_sess g sid <> None) -> agrees j g'.
  Proof. intros [T A] H. split; [assumption|]. intros sid. rewrite A, H. reflexivity. Qed.
  Lemma agrees_opening j g g' r sid : agrees j g -> opens sid r -> find_sess g sid = None ->
    (forall s, find_sess g' s <> None <-> s = sid \/ find_sess g s <> None) -> agrees (j ++ [r]) g'.
  Proof.
    intros [T A] O F H.
    assert (U : forall s, opens s r -> s = sid). { intros s (a & svc & X). destruct O as (a' & svc' & Y). eapply opening_id; eassumption. }
    split.
    - apply timely_snoc; [assumption| |].
      + intros s X. rewrite (U s X), A. congruence.
      + intros s X. exfalso. eapply not_both; eassumption.
    - intros s. rewrite shown_snoc, H, A. split.
      + intros [X|[X _]]; [left; auto|right; exact X].
      + intros [->|X]; [left; exact O|right]. split; [exact X|]. intros E. eapply not_both; eassumption.
  Qed.
  Lemma agrees_ending j g g' r sid : agrees j g -> ending sid r -> find_sess g sid <> None ->
    (forall s, find_sess g' s <> None <-> s <> sid /\ find_sess g s <> None) -> agrees (j ++ [r]) g'.
  Proof.
    intros [T A] E F H.
    assert (U : forall s, ending s r -> s = sid). { intros s X. eapply ending_id; eassumption. }
    split.
    - apply timely_snoc; [assumption| |].
      + intros s X. exfalso. eapply not_both; eassumption.
      + intros s X. rewrite (U s X), A. exact F.
    - intros s. rewrite shown_snoc, H, A. split.
      + intros [X|[X Y]]; [exfalso; eapply not_both; eassumption|]. split; [intros ->; auto|exact X].
      + intros [X Y]. right. split; [exact Y|]. intros Z. auto.
  Qed.

  Lemma find_set g sid s x : find_sess (set_sess g sid s) x <> None <-> x = sid \/ find_sess g x <> None.
  Proof.
    unfold find_sess, set_sess. cbn [set_sessions g_sessions]. rewrite alookup_insert. destruct (N.eqb_spec x sid) as [->|E]; [split; [auto|congruence]|]. intuition.
  Qed.
  Lemma find_kept g sid s0 s x : find_sess g sid = Some s0 -> find_sess (set_sess g sid s) x <> None <-> find_sess g x <> None.
  Proof. intros F. rewrite find_set. split; [intros [->|X]; congruence|auto]. Qed.
  Lemma find_removed g sid x : find_sess (set_sessions g (aremove sid (g_sessions g))) x <> None <-> x <> sid /\ find_sess g x <> None.
  Proof.
    unfold find_sess. cbn [set_sessions g_sessions]. rewrite alookup_remove. destruct (N.eqb_spec x sid) as [->|E]; [split; [congruence|intros [X _]; congruence]|]. intuition.
  Qed.
  Lemma find_wake g x : find_sess (wake_task g) x = find_sess g x.
  Proof. unfold wake_task. destruct (g_task g); reflexivity. Qed.

  Lemma poll_ends err n : forall g, let '(b, g', o) := poll_loop n g in
    (List.concat (map (poll_rec err) o) = [] /\ forall s, find_sess g' s <> None <-> find_sess g s <> None) \/
    exists sid code r, List.concat (map (poll_rec err) o) = [r; hup_rec sid code] /\ ending sid r /\ find_sess g sid <> None /\
      forall s, find_sess g' s <> None <-> s <> sid /\ find_sess g s <> None.
  Proof.
    induction n as [|n IH]; intros g; cbn [poll_loop]; [left; split; [reflexivity|reflexivity]|].
    destruct (g_order g) as [|sid rest]; [apply IH|]. cbv zeta. set (g0 := set_order g rest).
    destruct (find_sess g0 sid) as [s|] eqn:F; [|specialize (IH g0); exact IH].
    destruct (sess_take (g_factory g0) s) as [[[tk s'] f'] o]. destruct tk.
    - left. split; [reflexivity|]. intros x. change (find_sess (set_sess (set_factory g0 f') sid s') x <> None <-> find_sess (set_factory g0 f') x <> None). eapply find_kept. exact F.
    - right. exists sid, EC_CONNECTION_ERROR, (error_rec sid err). split; [reflexivity|]. split; [apply error_own|]. split; [change (find_sess g0 sid <> None); congruence|]. intros x. apply (find_removed (set_factory g0 f')).
    - right. exists sid, EC_NO_ERROR, (closed_rec sid). split; [reflexivity|]. split; [apply closed_own|]. split; [change (find_sess g0 sid <> None); congruence|]. intros x. apply (find_removed (set_factory g0 f')).
    - set (g2 := set_order (set_sess (set_factory g0 f') sid s') (g_order (set_factory g0 f') ++ [sid])).
      assert (K : forall x, find_sess g2 x <> None <-> find_sess g x <> None).
      { intros x. change (find_sess (set_sess (set_factory g0 f') sid s') x <> None <-> find_sess (set_factory g0 f') x <> None). eapply find_kept. exact F. }
      specialize (IH g2). destruct (poll_loop n g2) as [[b g'] os]. cbn [map List.concat app poll_rec]. destruct IH as [[A B]|(i & c & r & A & B & C & D)].
      + left. split; [exact A|]. intros x. rewrite B, K. reflexivity.
      + right. exists i, c, r. split; [exact A|]. split; [exact B|]. split; [apply K, C|]. intros x. rewrite D, K. reflexivity.
  Qed.

  Lemma reason_inner g get svc sid : match connect_reason g get svc sid with
    | inr a => exists t mac, connect_inner g get svc sid = Some (t, mac, a)
    | inl _ => connect_inner g get svc sid = None
    end.
  Proof.
    unfold connect_reason, connect_inner. destruct (find_sess g sid); [reflexivity|]. destruct (get svc) as [s|]; [|reflexivity].
    destruct (s_addr s) as [a|]; [|reflexivity]. destruct (negb (Manager.g_gateway g) && negb (is_loopback (sa_ip a))); [reflexivity|]. eauto.
  Qed.
  Lemma reason_new g get svc sid a : connect_reason g get svc sid = inr a -> find_sess g sid = None.
  Proof. unfold connect_reason. now destruct (find_sess g sid). Qed.

  Lemma agrees_step j g e err : agrees j g -> agrees (j ++ mgr_log aprint g e err) (fst (mgr_step g e)).
  Proof.
    intros A. destruct e as [get svc sid|m|sid|sid len| |sid t|f]; cbn [mgr_log mgr_step].
    - unfold mgr_connect. pose proof (reason_inner g get svc sid) as R. destruct (connect_reason g get svc sid) as [l|a] eqn:E.
      + rewrite R. unfold create_hup. cbn [next_id fst]. change [rejected_rec l; hup_rec sid EC_CONNECTION_ERROR] with ([rejected_rec l] ++ [hup_rec sid EC_CONNECTION_ERROR]).
        rewrite app_assoc. eapply agrees_silent; [eapply agrees_silent; [exact A|apply silent_rejected|reflexivity]|apply silent_hup|].
        intros x. rewrite find_wake. reflexivity.
      + destruct R as (t & mac & ->). cbn [fst]. eapply agrees_opening; [exact A|exists a, svc; apply opening_own|eapply reason_new; eassumption|].
        intros x. rewrite find_set, find_wake. reflexivity.
    - unfold mgr_send. cbv zeta. destruct (find_sess g (m_session m)) as [s|] eqn:F.
      + destruct (sess_step s (EPush (m_payload m))) as [s' o]. cbn [fst]. rewrite app_nil_r. eapply agrees_same; [exact A|]. intros x. eapply find_kept. exact F.
      + unfold create_hup. cbn [next_id fst]. eapply agrees_silent; [exact A|apply silent_hup|]. intros x. rewrite find_wake. reflexivity.
    - unfold mgr_close. destruct (find_sess g sid) as [s|] eqn:F.
      + destruct (sess_step s EClose) as [s' o]. cbn [fst]. eapply agrees_ending; [exact A|apply closing_own|congruence|]. intros x. apply find_removed.
      + cbn [fst]. rewrite app_nil_r. exact A.
    - unfold mgr_data_ack. rewrite app_nil_r. destruct (find_sess g sid) as [s|] eqn:F; [|exact A]. destruct (sess_step s (EDataAck len)) as [s' o]. cbn [fst].
      eapply agrees_same; [exact A|]. intros x. eapply find_kept. exact F.
    - unfold mgr_poll. destruct (g_queue g) as [|q qs].
      + pose proof (poll_ends err (length (g_order g)) g) as P. destruct (poll_loop (length (g_order g)) g) as [[b g'] o].
        assert (Q : forall x y z, fst (if b then (set_task g' x true, o) else (set_task g' y z, o)) = if b then set_task g' x true else set_task g' y z) by (destruct b; reflexivity).
        assert (Q2 : forall x y z, snd (if b then (set_task g' x true, o) else (set_task g' y z, o)) = o) by (destruct b; reflexivity).
        rewrite Q, Q2. clear Q Q2.
        assert (K : forall w x y z s, find_sess (if b then set_task g' w x else set_task g' y z) s = find_sess g' s) by (destruct b; reflexivity).
        destruct P as [[-> B]|(sid & code & r & -> & E & F & D)].
        * rewrite app_nil_r. eapply agrees_same; [exact A|]. intros x. rewrite K. apply B.
        * change [r; hup_rec sid code] with ([r] ++ [hup_rec sid code]). rewrite app_assoc. eapply agrees_silent with (g := g'); [eapply agrees_ending; [exact A|exact E|exact F|exact D]|apply silent_hup|].
          intros x. rewrite K. reflexivity.
      + cbn [fst snd map List.concat poll_rec app]. rewrite app_nil_r. eapply agrees_same; [exact A|reflexivity].
    - rewrite app_nil_r. destruct (find_sess g sid) as [s|] eqn:F; [|exact A]. destruct (sess_step s (sev_of t)) as [s' o]. cbn [fst].
      eapply agrees_same; [exact A|]. intros x. eapply find_kept. exact F.
    - rewrite app_nil_r. exact A.
  Qed.

  Lemma agrees_run es : forall j g, agrees j g -> agrees (j ++ mgr_journal aprint g es) (fst (mgr_run g (map fst es))).
  Proof.
    induction es as [|[e err] es IH]; intros j g A; cbn [mgr_journal map fst mgr_run]; [rewrite app_nil_r; exact A|].
    rewrite app_assoc. pose proof (agrees_step j g e err A) as B. destruct (mgr_step g e) as [g1 o1]. cbn [fst] in *. specialize (IH _ _ B).
    destruct (mgr_run g1 (map fst es)) as [g2 o2]. exact IH.
  Qed.
  Lemma agrees_new W gw f : agrees [] (mgr_new W gw f).
  Proof. split; [apply timely_nil|]. intros sid. split; [intros H; now apply shown_nil in H|intros H; now elim H]. Qed.

  (** The end of the manager *)
  Lemma drop_ends l : forall j, NoDup l -> timely j -> (forall sid, shown_open aprint j sid <-> In sid l) ->
    timely (j ++ map closing_rec l) /\ forall sid, ~ shown_open aprint (j ++ map closing_rec l) sid.
  Proof.
    induction l as [|x l IH]; intros j D T A; cbn [map].
    - rewrite app_nil_r. split; [exact T|]. intros sid H. apply A in H. exact H.
    - apply NoDup_cons_iff in D as [D1 D2]. change (closing_rec x :: map closing_rec l) with ([closing_rec x] ++ map closing_rec l). rewrite app_assoc.
      assert (U : forall s, ending s (closing_rec x) -> s = x). { intros s H. eapply ending_id; [exact H|apply closing_own]. }
      apply IH; [exact D2| |].
      + apply timely_snoc; [exact T| |].
        * intros s H. exfalso. eapply not_both; [exact H|apply closing_own].
        * intros s H. rewrite (U s H). apply A. now left.
      + intros s. rewrite shown_snoc, A. split.
        * intros [H|[H H1]]; [exfalso; eapply not_both; [exact H|apply closing_own]|]. destruct H as [->|H]; [|exact H]. elim H1. apply closing_own.
        * intros H. right. split; [now right|]. intros E. apply U in E. congruence.
  Qed.
  Lemma drop_shape g d : Permutation d (drop_log g) -> exists l, Permutation l (map fst (g_sessions g)) /\ d = map closing_rec l.
  Proof.
    unfold drop_log. rewrite <- (map_map fst closing_rec). intros H. apply Permutation_map_inv in H as (l & -> & H). exists l. split; [now apply Permutation_sym|reflexivity].
  Qed.

  Lemma audit W gw f es g h d :
    mgr_run (mgr_new W gw f) (map fst es) = (g, h) -> Permutation d (drop_log g) ->
    let j := mgr_journal aprint (mgr_new W gw f) es in
    (forall sid, shown_open aprint j sid <-> In sid (map fst (g_sessions g))) /\ timely (j ++ d) /\ (forall sid, ~ shown_open aprint (j ++ d) sid).
  Proof.
    intros R P j. pose proof (agrees_run es [] (mgr_new W gw f) (agrees_new W gw f)) as A. cbn [app] in A. fold j in A. destruct A as [T A].
    pose proof (mgr_run_keys W gw f (map fst es)) as K. rewrite R in *. cbn [fst] in *. unfold keys_ok in K.
    assert (B : forall sid, shown_open aprint j sid <-> In sid (map fst (g_sessions g))). { intros sid. rewrite A. apply alookup_keys. }
    split; [exact B|]. destruct (drop_shape g d P) as (l & L & ->). apply drop_ends; [eapply Permutation_NoDup; [apply Permutation_sym; exact L|exact K]|exact T|].
    intros sid. rewrite B. split; apply Permutation_in; [apply Permutation_sym|]; exact L.
  Qed.

  Lemma journal_snoc e err es : forall g, mgr_journal aprint g (es ++ [(e, err)]) = mgr_journal aprint g es ++ mgr_log aprint (fst (mgr_run g (map fst es))) e err.
  Proof.
    induction es as [|[e1 err1] es IH]; intros g; cbn [app mgr_journal map fst mgr_run]; [now rewrite app_nil_r|].
    rewrite IH, app_assoc. destruct (mgr_step g e1) as [g1 o1]. cbn [fst]. destruct (mgr_run g1 (map fst es)). reflexivity.
  Qed.
  Lemma gateway_wake g : Manager.g_gateway (wake_task g) = Manager.g_gateway g.
  Proof. unfold wake_task. destruct (g_task g); reflexivity. Qed.
  Lemma gateway_poll n : forall g, Manager.g_gateway (snd (fst (poll_loop n g))) = Manager.g_gateway g.
  Proof.
    induction n as [|n IH]; intros g; [reflexivity|]. cbn [poll_loop]. destruct (g_order g) as [|sid rest]; [apply IH|]. cbv zeta.
    destruct (find_sess (set_order g rest) sid) as [s|]; [|now rewrite IH]. destruct (sess_take _ s) as [[[tk s'] f'] o]. destruct tk; try reflexivity.
    specialize (IH (set_order (set_sess (set_factory (set_order g rest) f') sid s') (g_order (set_factory (set_order g rest) f') ++ [sid]))).
    destruct (poll_loop n _) as [[b g3] os]. exact IH.
  Qed.
  Lemma gateway_step g e : Manager.g_gateway (fst (mgr_step g e)) = Manager.g_gateway g.
  Proof.
    destruct e as [get svc sid|m|sid|sid len| |sid t|f]; cbn [mgr_step].
    - unfold mgr_connect. destruct (connect_inner g get svc sid) as [[[t mac] a]|].
      + cbn [fst set_sess set_sessions Manager.g_gateway]. rewrite gateway_wake. reflexivity.
      + unfold create_hup. cbn [next_id fst]. rewrite gateway_wake. reflexivity.
    - unfold mgr_send. cbv zeta. destruct (find_sess g (m_session m)) as [s|].
      + destruct (sess_step s (EPush (m_payload m))). reflexivity.
      + unfold create_hup. cbn [next_id fst]. rewrite gateway_wake. reflexivity.
    - unfold mgr_close. destruct (find_sess g sid) as [s|]; [|reflexivity]. destruct (sess_step s EClose). reflexivity.
    - unfold mgr_data_ack. destruct (find_sess g sid) as [s|]; [|reflexivity]. destruct (sess_step s (EDataAck len)). reflexivity.
    - unfold mgr_poll. destruct (g_queue g); [|reflexivity]. pose proof (gateway_poll (length (g_order g)) g) as K. destruct (poll_loop (length (g_order g)) g) as [[r g1] o]. destruct r; exact K.
    - destruct (find_sess g sid) as [s|]; [|reflexivity]. destruct (sess_step s (sev_of t)). reflexivity.
    - reflexivity.
  Qed.
  Lemma gateway_run es : forall g, Manager.g_gateway (fst (mgr_run g es)) = Manager.g_gateway g.
  Proof.
    induction es as [|e es IH]; intros g; [reflexivity|]. cbn [mgr_run]. rewrite <- (gateway_step g e). destruct (mgr_step g e) as [g1 o1]. cbn [fst].
    rewrite <- (IH g1). destruct (mgr_run g1 es). reflexivity.
  Qed.

  Lemma hup_own id sid code : hangup_told (amsg_of_cmsg (mk_hup id sid code)) (hup_rec sid code).
  Proof.
    exists id, sid, code, (hexw 6 sid), (hexw 8 code). split; [reflexivity|]. split; [apply hexw_filled; lia|]. split; [apply hexw_filled; lia|]. split; [reflexivity|].
    unfold hup_rec, say. cbn [j_text List.concat]. rewrite app_nil_r. reflexivity.
  Qed.

  Lemma connect_told W gw f es get svc sid err :
    let g0 := mgr_new W gw f in
    let j := mgr_journal aprint g0 es in
    let j' := mgr_journal aprint g0 (es ++ [(MConnect get svc sid, err)]) in
    let o := snd (mgr_step (fst (mgr_run g0 (map fst es))) (MConnect get svc sid)) in
    (exists t mac a r, o = [OOpen sid t mac a] /\ j' = j ++ [r] /\ opening aprint a svc sid r) \/
    (exists m r r' reason, o = [OQueued m] /\ j' = j ++ [r; r'] /\ j_sev r = WARN /\
       j_text r = lit "unable to connect to a remote service: "%string ++ reason /\ refusal aprint j get gw svc sid reason /\ hangup_told m r').
  Proof.
    cbv zeta. rewrite journal_snoc. pose proof (agrees_run es [] (mgr_new W gw f) (agrees_new W gw f)) as A. cbn [app] in A. destruct A as [_ A].
    pose proof (gateway_run (map fst es) (mgr_new W gw f)) as G. cbn [mgr_new Manager.g_gateway] in G.
    set (j := mgr_journal aprint (mgr_new W gw f) es) in *. set (g := fst (mgr_run (mgr_new W gw f) (map fst es))) in *. clearbody j g.
    cbn [mgr_log mgr_step]. unfold mgr_connect. pose proof (reason_inner g get svc sid) as R.
    destruct (connect_reason g get svc sid) as [l|a] eqn:E.
    - right. rewrite R. unfold create_hup. destruct (next_id (g_factory g)) as [id f1]. cbn [snd].
      exists (amsg_of_cmsg (mk_hup id sid EC_CONNECTION_ERROR)), (rejected_rec l), (hup_rec sid EC_CONNECTION_ERROR), (List.concat l).
      split; [reflexivity|]. split; [reflexivity|]. split; [reflexivity|]. split; [reflexivity|]. split; [|apply hup_own].
      unfold connect_reason in E. unfold refusal. rewrite A. destruct (find_sess g sid) as [s0|].
      + injection E as <-. left. split; [discriminate|]. exists (hexw 6 sid). split; [apply hexw_filled; lia|]. cbn [List.concat]. now rewrite app_nil_r.
      + right. split; [congruence|]. exists (hexw 4 svc). split; [apply hexw_filled; lia|]. destruct (get svc) as [s|].
        * right. exists s. split; [reflexivity|]. destruct (s_addr s) as [a|].
          -- right. exists a. rewrite G in E. destruct gw, (is_loopback (sa_ip a)) eqn:L; cbn [negb andb] in E; try discriminate. injection E as <-.
             repeat split; try assumption.
          -- injection E as <-. left. split; [reflexivity|]. cbn [List.concat]. now rewrite app_nil_r.
        * injection E as <-. left. split; [reflexivity|]. cbn [List.concat]. now rewrite app_nil_r.
    - left. destruct R as (t & mac & ->). exists t, mac, a, (opening_rec aprint a svc sid). split; [reflexivity|]. split; [reflexivity|]. apply opening_own.
  Qed.

  Lemma poll_hups err n : forall g, Forall2 hangup_told (hangups (snd (poll_loop n g))) (filter is_debug (List.concat (map (poll_rec err) (snd (poll_loop n g))))).
  Proof.
    induction n as [|n IH]; intros g; [constructor|]. cbn [poll_loop]. destruct (g_order g) as [|sid rest]; [apply IH|]. cbv zeta.
    destruct (find_sess (set_order g rest) sid) as [s|]; [|apply IH]. destruct (sess_take _ s) as [[[tk s'] f'] o]. destruct tk.
    - constructor.
    - unfold create_hup. destruct (next_id _) as [id f1]. cbn. constructor; [apply hup_own|constructor].
    - unfold create_hup. destruct (next_id _) as [id f1]. cbn. constructor; [apply hup_own|constructor].
    - specialize (IH (set_order (set_sess (set_factory (set_order g rest) f') sid s') (g_order (set_factory (set_order g rest) f') ++ [sid]))).
      destruct (poll_loop n _) as [[b g3] os]. exact IH.
  Qed.
  Lemma step_hups g e err : Forall2 hangup_told (hangups (snd (mgr_step g e))) (filter is_debug (mgr_log aprint g e err)).
  Proof.
    destruct e as [get svc sid|m|sid|sid len| |sid t|f]; cbn [mgr_log mgr_step].
    - unfold mgr_connect. pose proof (reason_inner g get svc sid) as R. destruct (connect_reason g get svc sid) as [l|a].
      + rewrite R. unfold create_hup. destruct (next_id (g_factory g)) as [id f1]. cbn. constructor; [apply hup_own|constructor].
      + destruct R as (t & mac & ->). constructor.
    - unfold mgr_send. cbv zeta. destruct (find_sess g (m_session m)) as [s|].
      + destruct (sess_step s (EPush (m_payload m))). constructor.
      + unfold create_hup. destruct (next_id (g_factory g)) as [id f1]. cbn. constructor; [apply hup_own|constructor].
    - unfold mgr_close. destruct (find_sess g sid) as [s|]; [|constructor]. destruct (sess_step s EClose). constructor.
    - unfold mgr_data_ack. destruct (find_sess g sid) as [s|]; [|constructor]. destruct (sess_step s (EDataAck len)). constructor.
    - unfold mgr_poll. destruct (g_queue g); [|constructor]. pose proof (poll_hups err (length (g_order g)) g) as K. destruct (poll_loop (length (g_order g)) g) as [[r g1] o]. destruct r; exact K.
    - destruct (find_sess g sid) as [s|]; [|constructor]. destruct (sess_step s (sev_of t)). constructor.
    - constructor.
  Qed.
  Lemma hups_told es : forall g, Forall2 hangup_told (hangups (snd (mgr_run g (map fst es)))) (filter is_debug (mgr_journal aprint g es)).
  Proof.
    induction es as [|[e err] es IH]; intros g; [constructor|]. cbn [map fst mgr_run mgr_journal]. pose proof (step_hups g e err) as H. destruct (mgr_step g e) as [g1 o1]. cbn [fst snd] in *.
    specialize (IH g1). destruct (mgr_run g1 (map fst es)) as [g2 o2]. cbn [snd] in *. unfold hangups in *. rewrite map_app, concat_app, filter_app. now apply Forall2_app.
  Qed.
End Sessions.
