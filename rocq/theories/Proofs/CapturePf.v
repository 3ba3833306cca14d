(** Proofs about packet capture, devices and scans. *)
From Coq Require Import NArith ZArith ZifyBool ZifyNat ZifyN List Bool Lia.
From Verif.Model Require Import Bytes Raw Capture.
From Verif.Spec Require Import CaptureSpec.
From Verif.Proofs Require Import BytesFacts.
Import ListNotations.
Local Open Scope N_scope.

Lemma read_exact : forall c, calls_ok c ->
  match read_packet c with
  | None => (rc_dispatch c < 0)%Z
  | Some (true, f) => rc_frame c = Some f /\ (0 < rc_dispatch c)%Z
  | Some (false, f) => f = [] /\ rc_dispatch c = 0%Z
  end.
Proof.
  intros c [O [B [P F]]]. unfold read_packet, wrapper_read. rewrite O, B. cbn [negb]. replace (rc_poll c <? 0)%Z with false by lia.
  assert (E : (if (rc_dispatch c <? 0)%Z then (rc_dispatch c, rc_frame c) else (rc_dispatch c, rc_frame c)) = (rc_dispatch c, rc_frame c)) by (destruct (rc_dispatch c <? 0)%Z; reflexivity).
  rewrite E. destruct (0 <=? rc_dispatch c)%Z eqn:D; [|lia]. destruct (0 <? rc_dispatch c)%Z eqn:D2.
  - destruct (rc_frame c) as [f|]; [split; [reflexivity|lia]|]. exfalso. apply F; [lia|reflexivity].
  - destruct (rc_frame c) as [f|]; [|split; [reflexivity|lia]]. exfalso. assert (X : (0 < rc_dispatch c)%Z) by (apply F; discriminate). lia.
Qed.
Lemma read_error : forall c, rc_open c = false \/ rc_nonblock c = false \/ ((rc_poll c < 0)%Z /\ (0 < rc_errno c)%Z) -> read_packet c = Some (true, []).
Proof.
  intros c H. unfold read_packet, wrapper_read. destruct (rc_open c); [|reflexivity]. destruct H as [H|H]; [discriminate|]. cbn [negb]. destruct (rc_nonblock c); cbn [negb].
  - destruct H as [H|[H E]]; [discriminate|]. replace (rc_poll c <? 0)%Z with true by lia. replace (0 <=? rc_errno c)%Z with true by lia. replace (0 <? rc_errno c)%Z with true by lia. reflexivity.
  - reflexivity.
Qed.
Lemma busy : forall soft start ts last acc, listen soft None start last (map (fun t => Rd (Some []) t t t) ts) acc = Running.
Proof.
  intros soft start ts. induction ts as [|t ts IH]; intros last acc; [reflexivity|]. cbn [map listen]. replace (packet_parse []) with (@RErr packet) by reflexivity.
  cbv beta iota zeta. replace (soft <? t - t) with false by lia. apply IH.
Qed.

(** ** The message of the last error *)
Lemma c_text_app : forall s r, ~ In 0 s -> c_text (s ++ 0 :: r) = Some s.
Proof.
  induction s as [|c s IH]; intros r H; [reflexivity|]. cbn [app c_text]. destruct (N.eqb_spec c 0) as [E|E]; [exfalso; apply H; now left|]. rewrite IH; [reflexivity|]. intros X. apply H. now right.
Qed.
Lemma in_firstn : forall (l : bytes) n x, In x (firstn n l) -> In x l.
Proof. intros l n x H. rewrite <- (firstn_skipn n l). apply in_or_app. now left. Qed.
Lemma copy_ok : forall m junk s buf, (forall n, nlen (junk n) = n) -> ~ In 0 s -> 256 <= nlen buf ->
  exists b k, copy_error m junk s buf = Some b /\ 256 <= nlen b /\ c_text b = Some (firstn k s) /\ (m = true \/ nlen s < nlen buf -> (length s <= k)%nat) /\ (255 <= k \/ length s <= k)%nat.
Proof.
  intros m junk s buf J Z L. unfold copy_error. cbv zeta. set (b0 := if nlen buf <? nlen s + 1 then try_realloc m junk (nlen s + 1) buf else buf). set (len := if nlen b0 <? nlen s + 1 then nlen b0 - 1 else nlen s).
  assert (L0 : 256 <= nlen b0). { unfold b0, try_realloc. destruct (nlen buf <? nlen s + 1) eqn:E; [|exact L]. destruct m; [rewrite J; lia|exact L]. }
  assert (Q : len < nlen b0 /\ len <= nlen s) by (unfold len; destruct (nlen b0 <? nlen s + 1) eqn:E; lia).
  assert (G : m = true \/ nlen s < nlen buf -> len = nlen s).
  { intros H. unfold len. destruct (nlen b0 <? nlen s + 1) eqn:E; [|reflexivity]. exfalso. unfold b0, try_realloc in E. destruct (nlen buf <? nlen s + 1) eqn:E1; [|lia]. destruct m; [rewrite J in E; lia|]. destruct H as [H|H]; [discriminate|lia]. }
  assert (G2 : 255 <= len \/ nlen s <= len) by (unfold len; destruct (nlen b0 <? nlen s + 1) eqn:E; lia).
  clearbody len b0. destruct Q as [Q1 Q2].
  assert (LL : length (firstn (N.to_nat len) s) = N.to_nat len) by (rewrite firstn_length; unfold nlen in *; lia).
  unfold copy_in. unfold nlen at 1. rewrite LL. replace (N.of_nat (N.to_nat len) <=? nlen b0) with true by lia.
  set (b1 := firstn (N.to_nat len) s ++ skipn (N.to_nat len) b0). 
  assert (LB : nlen b1 = nlen b0). { unfold b1, nlen. rewrite app_length, LL, skipn_length. unfold nlen in *. lia. }
  rewrite LB. replace (len <? nlen b0) with true by lia. eexists. exists (N.to_nat len). split; [reflexivity|].
  assert (F : firstn (N.to_nat len) b1 = firstn (N.to_nat len) s).
  { unfold b1. rewrite firstn_app, LL, Nat.sub_diag. cbn [firstn]. rewrite app_nil_r. rewrite firstn_all2; [reflexivity|lia]. }
  rewrite F. split.
  - unfold nlen in *. rewrite app_length, LL. cbn [length]. rewrite skipn_length. lia.
  - split; [apply c_text_app; intros X; apply Z; exact (in_firstn _ _ _ X)|]. unfold nlen in *. split; [intros H; specialize (G H); lia|lia].
Qed.
Lemma library_ok : forall s buf, ~ In 0 s -> nlen s < 256 -> 256 <= nlen buf ->
  exists b, library_error s buf = Some b /\ nlen b = nlen buf /\ c_text b = Some s.
Proof.
  intros s buf Z S L. unfold library_error, copy_in. assert (E : nlen (s ++ [0]) = nlen s + 1) by (unfold nlen; rewrite app_length; cbn [length]; lia).
  rewrite E. replace (nlen s + 1 <=? nlen buf) with true by lia. eexists. split; [reflexivity|]. split.
  - unfold nlen in *. rewrite app_length, skipn_length, app_length in *. cbn [length] in *. lia.
  - rewrite <- app_assoc. apply c_text_app. exact Z.
Qed.
Lemma errors_ok : forall junk l, (forall n, nlen (junk n) = n) -> Forall err_ok l ->
  exists b, err_run junk l = Some b /\ 256 <= nlen b /\
    match rev l with
    | [] => c_text b = Some []
    | o :: _ => exists k, c_text b = Some (firstn k (err_text o)) /\ (255 <= k \/ length (err_text o) <= k)%nat /\
                          match o with OwnError false _ => True | _ => (length (err_text o) <= k)%nat end
    end.
Proof.
  intros junk l J. induction l as [|o l IH] using rev_ind; intros F.
  - exists (error_new junk). split; [reflexivity|]. split; [|reflexivity]. unfold error_new, nlen. cbn [length]. rewrite skipn_length. pose proof (J 256) as E. unfold nlen in E. lia.
  - apply Forall_app in F. destruct F as [F O]. apply Forall_inv in O. destruct (IH F) as [b [E [L _]]]. unfold err_run. rewrite fold_left_app. cbn [fold_left].
    unfold err_run in E. rewrite E. rewrite rev_unit. destruct O as [Z O]. destruct o as [m s|s]; cbn [err_step err_text] in *.
    + destruct (copy_ok m junk s b J Z L) as [b' [k [E' [L' [T [K1 K2]]]]]]. exists b'. split; [exact E'|]. split; [exact L'|]. exists k. split; [exact T|]. split; [exact K2|]. destruct m; [apply K1; now left|exact I].
    + destruct (library_ok s b Z O L) as [b' [E' [L' T]]]. exists b'. split; [exact E'|]. split; [rewrite L'; exact L|]. exists (length s). split; [rewrite firstn_all; exact T|]. lia.
Qed.

(** ** Devices *)
Lemma devices_listed : forall l acc, (forall r, In r l -> ~ maskless r) -> exists ds, listing l ds /\ find_devices l acc = Some (rev ds ++ acc).
Proof.
  induction l as [|r l IH]; intros acc H; [exists []; split; [constructor|reflexivity]|]. pose proof (H r (or_introl eq_refl)) as M. assert (H' : forall r, In r l -> ~ maskless r) by (intros x X; apply H; now right).
  destruct r as [name addr mask hw]. cbn [find_devices if_addr]. 
  assert (SK : (forall mac ip mk, ~ (hw = Some (ARPHRD_ETHER, mac) /\ addr = Some (AF_INET, ip) /\ mask = Some (AF_INET, mk))) ->
    exists ds, listing ({| if_name := name; if_addr := addr; if_mask := mask; if_hw := hw |} :: l) ds /\ find_devices l acc = Some (rev ds ++ acc)).
  { intros N. destruct (IH acc H') as [ds [L E]]. exists ds. split; [|exact E]. now apply listing_skip. }
  destruct addr as [[fam ip]|]; [|apply SK; intros mac ip mk [_ [X _]]; discriminate X].
  unfold device_info. cbn [if_hw if_addr if_mask if_name]. destruct hw as [[ty mac]|]; [|apply SK; intros a b c [X _]; discriminate X].
  destruct (N.eqb_spec ty ARPHRD_ETHER) as [E1|E1]; [|apply SK; intros a b c [X _]; injection X as X _; contradiction]. cbn [ipv4_record].
  destruct (N.eqb_spec fam AF_INET) as [E2|E2]; [|apply SK; intros a b c [_ [X _]]; injection X as X _; contradiction].
  destruct mask as [[mf mk]|]; cbn [ipv4_record].
  - destruct (N.eqb_spec mf AF_INET) as [E3|E3]; [|apply SK; intros a b c [_ [_ X]]; injection X as X _; contradiction]. subst.
    destruct (IH ({| d_name := name; d_mac := mac; d_ip := ip; d_mask := mk |} :: acc) H') as [ds [L E]]. exists ({| d_name := name; d_mac := mac; d_ip := ip; d_mask := mk |} :: ds).
    split; [now constructor|]. rewrite E. cbn [rev]. now rewrite <- app_assoc.
  - exfalso. apply M. subst. split; [now exists mac|]. split; [now exists ip|reflexivity].
Qed.
Lemma devices_crash : forall l acc r, In r l -> maskless r -> find_devices l acc = None.
Proof.
  induction l as [|x l IH]; intros acc r I M; [contradiction|]. cbn [find_devices]. destruct I as [I|I].
  - subst x. destruct M as [[mac M1] [[ip M2] M3]]. rewrite M2. unfold device_info. rewrite M1, N.eqb_refl, M2. cbn [ipv4_record]. rewrite N.eqb_refl, M3. reflexivity.
  - destruct (if_addr x); [|now apply (IH _ r)]. destruct (device_info x) as [[d|]|]; [now apply (IH _ r)|now apply (IH _ r)|reflexivity].
Qed.
Lemma listing_fun : forall l ds es, listing l ds -> listing l es -> ds = es.
Proof.
  intros l ds es H. revert es. induction H as [|name mac ip mask l ds H IH|r l ds H IH N]; intros es X.
  - inversion X. reflexivity.
  - inversion X as [|a b c d e f g h i|r l' ds' G N]; subst; [f_equal; now apply IH|]. exfalso. eapply N. cbn. eauto.
  - inversion X as [|a b c d e f g h i|r' l' ds' G N']; subst; [|now apply IH]. exfalso. eapply N. cbn. eauto.
Qed.
Lemma mac_is_last : forall l ds d, (forall r, In r l -> ~ maskless r) -> listing l (ds ++ [d]) ->
  match find_devices l [] with Some f => first_mac f = Some (d_mac d) | None => False end.
Proof.
  intros l ds d M L. destruct (devices_listed l [] M) as [es [L' E]]. rewrite E, app_nil_r. rewrite (listing_fun _ _ _ L' L). rewrite rev_unit. reflexivity.
Qed.

Lemma find_rev {A} (f : A -> bool) (l : list A) x : find f (rev l) = Some x <->
  exists a b, l = a ++ x :: b /\ f x = true /\ forall y, In y b -> f y = false.
Proof.
  split.
  - induction l as [|l0 l IH] using rev_ind; [discriminate|]. rewrite rev_unit. cbn [find]. destruct (f l0) eqn:F.
    + intros E. injection E as <-. exists l, []. repeat split; auto. intros y [].
    + intros E. destruct (IH E) as (a & b & -> & Fx & Fb). exists a, (b ++ [l0]). rewrite <- app_assoc. repeat split; auto.
      intros y Hy. apply in_app_or in Hy. destruct Hy as [Hy|[<-|[]]]; auto.
  - intros (a & b & -> & Fx & Fb). rewrite rev_app_distr. cbn [rev]. rewrite <- app_assoc. cbn [app].
    assert (H : forall y, In y (rev b) -> f y = false) by (intros y Hy; apply Fb; now apply in_rev).
    induction (rev b) as [|y r IH]; cbn [app find]; [now rewrite Fx|].
    rewrite (H y (or_introl eq_refl)). apply IH. intros z Hz. apply H. now right.
Qed.
Lemma mac_by_name : forall l ds name m, (forall r, In r l -> ~ maskless r) -> listing l ds ->
  match find_devices l [] with
  | Some f => get_mac name f = Some m <->
      exists a d b, ds = a ++ d :: b /\ d_name d = name /\ d_mac d = m /\ forall x, In x b -> d_name x <> name
  | None => False
  end.
Proof.
  intros l ds name m M L. destruct (devices_listed l [] M) as [es [L' E]]. rewrite E, app_nil_r. rewrite (listing_fun _ _ _ L' L).
  unfold get_mac. split.
  - destruct (find _ (rev ds)) as [d|] eqn:F; [|discriminate]. intros X. injection X as <-.
    apply find_rev in F. destruct F as (a & b & -> & Fx & Fb). exists a, d, b. repeat split; auto.
    + now apply beq_spec in Fx.
    + intros x Hx <-. specialize (Fb _ Hx). rewrite beq_refl in Fb. discriminate.
  - intros (a & d & b & -> & <- & <- & N). assert (F : find (fun d0 => beq (d_name d0) (d_name d)) (rev (a ++ d :: b)) = Some d).
    { apply find_rev. exists a, b. repeat split; auto; [apply beq_refl|]. intros y Hy. destruct (beq (d_name y) (d_name d)) eqn:Q; [|reflexivity].
      apply beq_spec in Q. now apply N in Hy. }
    now rewrite F.
Qed.

(** ** Scans *)
(** The sender does not go on before the listener has started or failed; the listener signals nothing else. *)
Definition sr_inv (q : sr) : Prop :=
  (q_l q = LStart \/ q_l q = LActive -> q_message q = false /\ q_closed q = false /\ q_s q = SWaiting) /\
  (q_s q = SReturned true -> q_l q = LEnded true) /\
  (q_l q = LListening \/ (exists b, q_l q = LEnded b) -> q_closed q = true).
(** What was seen: whether the listener became active (first of all), the frames and the result *)
Definition logged (count : nat) (q : sr) (o : list sr_event) : Prop :=
  exists act n ret, o = (if act : bool then [VActive] else []) ++ map VSent (seq 0 n) ++ ret /\ (n <= count)%nat /\
    (q_l q = LStart -> act = false) /\ (q_l q = LActive \/ q_l q = LListening \/ q_l q = LEnded true -> act = true) /\
    match q_s q with
    | SWaiting | SOpening => n = 0%nat /\ ret = []
    | SSending k => n = k /\ ret = []
    | SJoining => n = count /\ ret = []
    | SReturned b => ret = [VReturned b] /\ (b = true -> n = count)
    end.
Lemma sr_inv_step : forall count e q q' o', sr_inv q -> sr_next count e q = (q', o') -> sr_inv q'.
Proof.
  intros count e [l s m c] q' o' [V1 [V2 V3]] E. unfold sr_next in E. cbn [q_l q_s q_message q_closed] in *. 
  destruct e as [ok|ok]; [destruct l as [| | |r]; [destruct ok| | |]|destruct s as [| |n| |b]; [destruct (m || c) eqn:MC|destruct ok|destruct (Nat.ltb n count); [destruct ok|]|destruct l as [| | |r]|]];
    injection E as E1 E2; subst q' o'; (split; [|split]); cbn [q_l q_s q_message q_closed]; intros X; try congruence; try (destruct X as [X|X]; congruence); try (destruct X as [X|[b' X]]; congruence); try (now apply V1; auto); try (now apply V2); try (now apply V3); try reflexivity.
  all: try (apply V3; now left). all: try (apply V3; right; eauto; fail).
  all: try (destruct (V1 (or_introl eq_refl)) as [A [B C]]; now auto). all: try (destruct (V1 (or_intror eq_refl)) as [A [B C]]; congruence).
  all: try (destruct (V1 X) as [A [B C]]; subst; discriminate). all: try (specialize (V2 X); discriminate). all: try (destruct (V1 (or_introl eq_refl)) as [A [B C]]; congruence).
Qed.
Lemma logged_step : forall count e q o q' o', sr_inv q -> logged count q o -> sr_next count e q = (q', o') -> logged count q' (o ++ o').
Proof.
  intros count e [l s m c] o q' o' [V1 [V2 V3]] [act [n [ret [O [N [A1 [A2 S]]]]]]] E. unfold sr_next in E. cbn [q_l q_s q_message q_closed] in *.
  destruct e as [ok|ok].
  - destruct l as [| | |r].
    + destruct (V1 (or_introl eq_refl)) as [M [C Sw]]. subst m c s. destruct S as [S1 S2]. subst n ret. rewrite (A1 eq_refl) in O. cbn [app seq map] in O. subst o.
      destruct ok; injection E as E1 E2; subst q' o'; [exists true|exists false]; exists 0%nat, []; cbn [q_l q_s app map seq]; repeat split; try lia; try congruence; intros X; repeat (destruct X as [X|X]; try discriminate X); congruence.
    + injection E as E1 E2; subst q' o'. rewrite app_nil_r. exists act, n, ret. cbn [q_l q_s]. repeat split; try assumption; [discriminate|]. intros _. apply A2. now left.
    + injection E as E1 E2; subst q' o'. rewrite app_nil_r. exists act, n, ret. cbn [q_l q_s]. repeat split; try assumption; [discriminate|]. intros _. apply A2. right. now left.
    + injection E as E1 E2; subst q' o'. rewrite app_nil_r. exists act, n, ret. cbn [q_l q_s]. repeat split; assumption.
  - destruct s as [| |k| |b].
    + destruct (m || c); injection E as E1 E2; subst q' o'; rewrite app_nil_r; exists act, n, ret; cbn [q_l q_s]; repeat split; try assumption; now apply S.
    + destruct S as [S1 S2]. subst n ret. destruct ok; injection E as E1 E2; subst q' o'.
      * rewrite app_nil_r. exists act, 0%nat, []. cbn [q_l q_s]. repeat split; assumption.
      * exists act, 0%nat, [VReturned false]. cbn [q_l q_s]. subst o. rewrite <- !app_assoc. repeat split; try assumption. discriminate.
    + destruct S as [S1 S2]. subst n ret. destruct (Nat.ltb_spec k count) as [L|L]; [destruct ok|]; injection E as E1 E2; subst q' o'.
      * exists act, (S k), []. cbn [q_l q_s]. subst o. rewrite seq_S, map_app. cbn [map Nat.add]. rewrite !app_nil_r. rewrite <- !app_assoc. repeat split; try assumption; lia.
      * exists act, k, [VReturned false]. cbn [q_l q_s]. subst o. rewrite <- !app_assoc. repeat split; try assumption. discriminate.
      * rewrite app_nil_r. exists act, k, []. cbn [q_l q_s]. repeat split; try assumption; lia.
    + destruct S as [S1 S2]. subst n ret. destruct l as [| | |r]; injection E as E1 E2; subst q' o'.
      * rewrite app_nil_r. exists act, count, []. cbn [q_l q_s]. repeat split; assumption.
      * rewrite app_nil_r. exists act, count, []. cbn [q_l q_s]. repeat split; assumption.
      * rewrite app_nil_r. exists act, count, []. cbn [q_l q_s]. repeat split; assumption.
      * exists act, count, [VReturned r]. cbn [q_l q_s]. subst o. rewrite <- !app_assoc. repeat split; try assumption.
    + injection E as E1 E2; subst q' o'. rewrite app_nil_r. exists act, n, ret. cbn [q_l q_s]. repeat split; try assumption; now apply S.
Qed.
Lemma sr_run_inv : forall count l q o q' o', sr_inv q -> logged count q o -> sr_run count l q = (q', o') -> sr_inv q' /\ logged count q' (o ++ o').
Proof.
  induction l as [|e l IH]; intros q o q' o' V W E; cbn [sr_run] in E; [injection E as E1 E2; subst; rewrite app_nil_r; now split|].
  destruct (sr_next count e q) as [q1 o1] eqn:N. destruct (sr_run count l q1) as [q2 o2] eqn:R. injection E as E1 E2. subst q' o'. rewrite app_assoc.
  apply (IH q1 (o ++ o1)); [exact (sr_inv_step _ _ _ _ _ V N)|exact (logged_step _ _ _ _ _ _ V W N)|exact R].
Qed.
Lemma sr_new_ok : forall count, sr_inv sr_new /\ logged count sr_new [].
Proof.
  intros count. split; [split; [auto|split; [discriminate|intros [X|[b X]]; discriminate X]]|]. exists false, 0%nat, []. cbn [sr_new q_l q_s]. repeat split; try lia. intros [X|[X|X]]; discriminate X.
Qed.
Lemma sr_shape : forall count l q o, sr_run count l sr_new = (q, o) ->
  exists act n ret, o = (if act : bool then [VActive] else []) ++ map VSent (seq 0 n) ++ ret /\ (n <= count)%nat /\
    (ret = [] \/ ret = [VReturned false] \/ (ret = [VReturned true] /\ act = true /\ n = count /\ q_l q = LEnded true)).
Proof.
  intros count l q o E. destruct (sr_new_ok count) as [V W]. destruct (sr_run_inv count l sr_new [] q o V W E) as [[V1 [V2 V3]] [act [n [ret [O [N [A1 [A2 S]]]]]]]]. cbn [app] in O.
  exists act, n, ret. split; [exact O|]. split; [exact N|]. destruct (q_s q) as [| |k| |b]; try (left; now apply S). destruct S as [S1 S2]. destruct b; [right; right|right; left; exact S1].
  specialize (V2 eq_refl). repeat split; auto.
Qed.
(** A failed listener: the scan fails. *)
Lemma sr_progress : forall count l q o, sr_run count l sr_new = (q, o) -> (forall b, q_s q <> SReturned b) -> exists e, fst (sr_next count e q) <> q.
Proof.
  intros count l q o E R. destruct (sr_new_ok count) as [V W]. destruct (sr_run_inv count l sr_new [] q o V W E) as [[V1 [V2 V3]] _]. destruct q as [ql qs m c]. cbn [q_l q_s q_message q_closed] in *.
  destruct ql as [| | |r]; try (exists (StListener true); discriminate).
  exists (StSender true). destruct qs as [| |k| |b]; cbn [sr_next q_l q_s q_message q_closed].
  - rewrite (V3 (or_intror (ex_intro _ r eq_refl))), orb_true_r. discriminate.
  - discriminate.
  - destruct (Nat.ltb k count); cbn [fst]; [|discriminate]. intros X. injection X as X. lia.
  - discriminate.
  - exfalso. now apply (R b).
Qed.
Lemma sr_work : forall count e q, fst (sr_next count e q) <> q -> (work count (fst (sr_next count e q)) < work count q)%nat.
Proof.
  intros count e [l s m c] H. unfold sr_next in *. cbn [q_l q_s q_message q_closed] in *. 
  destruct e as [ok|ok]; [destruct l as [| | |r]; [destruct ok| | |]|destruct s as [| |n| |b]; [destruct (m || c)|destruct ok|destruct (Nat.ltb_spec n count); [destruct ok|]|destruct l as [| | |r]|]];
    cbn [fst] in *; try (exfalso; now apply H); unfold work; cbn [q_l q_s]; lia.
Qed.
