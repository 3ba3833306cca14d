(** From the wire to the service and back. *)
From Coq Require Import NArith ZArith List Bool Lia ZifyBool ZifyNat ZifyN.
From Verif.Model Require Import Bytes Frame Service Control Alist Session Manager Client Wire.
From Verif.Spec Require Import FrameSpec SessionSpec ManagerSpec ClientSpec WireSpec.
From Verif.Proofs Require Import BytesFacts AlistFacts SessionProofs ClientInv WirePf WireRun.
Import ListNotations.
Local Open Scope N_scope.

(** ** Histories *)
Lemma data_in_app sid h o : data_in sid (h ++ o) = fold_left (data_in_step sid) o (data_in sid h).
Proof. apply fold_left_app. Qed.
Lemma data_out_app sid h o : data_out sid (h ++ o) = fold_left (data_out_step sid) o (data_out sid h).
Proof. apply fold_left_app. Qed.
Lemma to_service_app sid h o : to_service sid (h ++ o) = fold_left (to_service_step sid) o (to_service sid h).
Proof. apply fold_left_app. Qed.
Lemma from_service_app sid h o : from_service sid (h ++ o) = fold_left (from_service_step sid) o (from_service sid h).
Proof. apply fold_left_app. Qed.

(** Observations that say nothing about data of sessions. *)
Definition dull (x : cobs) : Prop :=
  match x with
  | XMgr (OOpen _ _ _ _) | XMgr (OSess _ _ _) => False
  | XRecv _ m | XSent m => m_service m = 0
  | _ => True
  end.

Lemma dull_all sid o : Forall dull o -> forall h,
  data_in sid (h ++ o) = data_in sid h /\ data_out sid (h ++ o) = data_out sid h /\
  to_service sid (h ++ o) = to_service sid h /\ from_service sid (h ++ o) = from_service sid h.
Proof.
  intros F h. rewrite data_in_app, data_out_app, to_service_app, from_service_app.
  revert F. generalize (data_in sid h) (data_out sid h) (to_service sid h) (from_service sid h).
  induction o as [|x o IH]; intros a b c d F; [repeat split|]. inversion F as [|? ? Hx Ho]; subst. cbn [fold_left].
  replace (data_in_step sid a x) with a; [replace (data_out_step sid b x) with b; [replace (to_service_step sid c x) with c;
    [replace (from_service_step sid d x) with d; [apply IH; exact Ho|]|]|]|];
    destruct x as [e m|?|?|[| | | |]|?|m]; cbn in *; try contradiction; try reflexivity; now rewrite Hx.
Qed.

Lemma prefix_refl a : starts_with_bytes a a.
Proof. exists []. now rewrite app_nil_r. Qed.
Lemma prefix_app a b c : starts_with_bytes b a -> starts_with_bytes (b ++ c) a.
Proof. intros [d ->]. exists (d ++ c). now rewrite app_assoc. Qed.
Lemma prefix_cut a b c : starts_with_bytes b (a ++ c) -> starts_with_bytes b a.
Proof. intros [d ->]. exists (c ++ d). now rewrite app_assoc. Qed.

(** ** One session *)
Lemma closed_stays s e : s_closed s = true -> s_closed (fst (sess_step s e)) = true.
Proof. intros H. pose proof (closed_step s e H) as C. destruct (sess_step s e). apply C. Qed.

Definition pushed (e : sev) : bytes := match e with EPush p => p | _ => [] end.

Lemma step_accepts s e s' o : sess_step s e = (s', o) ->
  (accepted o = pushed e /\ (s_closed s = true -> pushed e = [])) \/
  (accepted o = [] /\ s_closed s' = true).
Proof.
  intros H. destruct e as [n|p|f| | | |r w| |]; cbn [sess_step] in H.
  - injection H as <- <-. left. split; [reflexivity|auto].
  - unfold sess_push in H. destruct (s_closed s) eqn:C; [injection H as <- <-; right; auto|].
    destruct (s_outcap s <? nlen p).
    + injection H as <- <-. right. split; [reflexivity|]. unfold sess_set_error. rewrite C. unfold sess_close.
      rewrite closed_wake_mgr, closed_wake_tr. reflexivity.
    + injection H as <- <-. left. split; [cbn; now rewrite app_nil_r|discriminate].
  - left. split; [|auto]. unfold sess_take in H. destruct (0 <? s_written s).
    + destruct (next_id f). injection H as <- <-. reflexivity.
    + destruct (firstn _ _).
      * destruct (s_closed _); [destruct (s_error _)|]; injection H as <- <-; reflexivity.
      * injection H as <- <-. reflexivity.
  - injection H as <- <-. left. auto.
  - left. split; [|auto]. destruct (s_phase s); injection H as <- <-; reflexivity.
  - left. split; [|auto]. destruct (s_phase s); injection H as <- <-; reflexivity.
  - left. split; [|auto]. unfold transport_poll in H. destruct (s_phase s); try (injection H as <- <-; reflexivity).
    destruct (s_closed _); [injection H as <- <-; reflexivity|].
    destruct (poll_read_input _ r) as [[x1 s1] o1] eqn:R. destruct (poll_write_output s1 w) as [[x2 s2] o2] eqn:Wr.
    injection H as <- <-. rewrite accepted_app.
    assert (accepted o1 = []) as ->.
    { unfold poll_read_input in R. destruct (s_closed _); [injection R as <- <- <-; reflexivity|].
      destruct (_ <=? _); [injection R as <- <- <-; reflexivity|].
      destruct r as [|[|b0 b]|]; injection R as <- <- <-; reflexivity. }
    unfold poll_write_output in Wr. destruct (s_output s1).
    + destruct (s_closed s1); injection Wr as <- <- <-; reflexivity.
    + destruct w; injection Wr as <- <- <-; reflexivity.
  - left. split; [|auto]. destruct (s_wait_rd s); injection H as <- <-; reflexivity.
  - left. split; [|auto]. destruct (s_wait_wr s); injection H as <- <-; reflexivity.
Qed.

Lemma step_sends s e s' o : sess_step s e = (s', o) -> match e with ETake _ => True | _ => SessionSpec.sent o = [] end.
Proof.
  intros H. destruct e as [n|p|f| | | |r w| |]; cbn [sess_step] in H; try exact I.
  - injection H as <- <-. reflexivity.
  - unfold sess_push in H. destruct (s_closed s) eqn:C; [injection H as <- <-; reflexivity|].
    destruct (s_outcap s <? nlen p); injection H as <- <-; reflexivity.
  - injection H as <- <-. reflexivity.
  - destruct (s_phase s); injection H as <- <-; reflexivity.
  - destruct (s_phase s); injection H as <- <-; reflexivity.
  - unfold transport_poll in H. destruct (s_phase s); try (injection H as <- <-; reflexivity).
    destruct (s_closed _); [injection H as <- <-; reflexivity|].
    destruct (poll_read_input _ r) as [[x1 s1] o1] eqn:R. destruct (poll_write_output s1 w) as [[x2 s2] o2] eqn:Wr.
    injection H as <- <-. rewrite SessionProofs.sent_app.
    assert (SessionSpec.sent o1 = []) as ->.
    { unfold poll_read_input in R. destruct (s_closed _); [injection R as <- <- <-; reflexivity|].
      destruct (_ <=? _); [injection R as <- <- <-; reflexivity|].
      destruct r as [|[|b0 b]|]; injection R as <- <- <-; reflexivity. }
    unfold poll_write_output in Wr. destruct (s_output s1).
    + destruct (s_closed s1); injection Wr as <- <- <-; reflexivity.
    + destruct w; injection Wr as <- <- <-; reflexivity.
  - destruct (s_wait_rd s); injection H as <- <-; reflexivity.
  - destruct (s_wait_wr s); injection H as <- <-; reflexivity.
Qed.

(** ** The invariants of one session ID *)
Definition j_in (sid : N) (st : option sess) (h : list cobs) : Prop :=
  match st with
  | Some s => starts_with_bytes (data_in sid h) (to_service sid h ++ s_output s) /\
              (s_closed s = false -> data_in sid h = to_service sid h ++ s_output s)
  | None => starts_with_bytes (data_in sid h) (to_service sid h)
  end.

Definition j_out (sid : N) (st : option sess) (h : list cobs) : Prop :=
  match st with
  | Some s => from_service sid h = data_out sid h ++ s_input s
  | None => starts_with_bytes (from_service sid h) (data_out sid h)
  end.

Lemma j_in_weak sid st h : j_in sid st h -> starts_with_bytes (data_in sid h) (to_service sid h).
Proof. destruct st; cbn; [intros [H _]; eapply prefix_cut; eauto|auto]. Qed.
Lemma j_out_weak sid st h : j_out sid st h -> starts_with_bytes (from_service sid h) (data_out sid h).
Proof. destruct st; cbn; [intros ->; eexists; reflexivity|auto]. Qed.

Lemma j_in_dull sid st h o : Forall dull o -> j_in sid st h -> j_in sid st (h ++ o).
Proof. intros F. destruct (dull_all sid o F h) as (A & _ & B & _). unfold j_in. now rewrite A, B. Qed.
Lemma j_out_dull sid st h o : Forall dull o -> j_out sid st h -> j_out sid st (h ++ o).
Proof. intros F. destruct (dull_all sid o F h) as (_ & A & _ & B). unfold j_out. now rewrite A, B. Qed.

(** An event of session [k]; [pre] is what has happened just before. *)
Lemma j_in_sess sid st h k s e s' o pre :
  j_in sid st h -> (sid = k -> st = Some s) -> sess_step s e = (s', o) ->
  (forall acc, fold_left (data_in_step sid) pre acc = acc ++ (if sid =? k then pushed e else [])) ->
  (forall acc, fold_left (to_service_step sid) pre acc = acc) ->
  j_in sid (if sid =? k then Some s' else st) (h ++ pre ++ [XMgr (OSess k e o)]).
Proof.
  intros J Hst Hs Hd Ht. pose proof (step_accepts _ _ _ _ Hs) as Ha. pose proof (sess_step_ok 0 s e) as So. rewrite Hs in So.
  destruct So as [So _ _ _ _ _ _]. pose proof (closed_stays s e) as Hc. rewrite Hs in Hc. cbn [fst] in Hc.
  unfold j_in in *. rewrite app_assoc, data_in_app, to_service_app, data_in_app, to_service_app, Hd, Ht.
  cbn [fold_left data_in_step to_service_step]. rewrite (N.eqb_sym k sid). destruct (N.eqb_spec sid k) as [->|Nk]; cbv iota.
  - rewrite (Hst eq_refl) in J. destruct J as [J1 J2].
    destruct Ha as [[Ha Hp]|[Ha Hc']].
    + destruct (s_closed s) eqn:C.
      * assert (accepted o = []) as Ea by (rewrite Ha; auto). rewrite Ea, app_nil_r in So.
        rewrite <- app_assoc, <- So, <- Ha, Ea, app_nil_r. split; [exact J1|]. rewrite (Hc eq_refl). discriminate.
      * rewrite <- app_assoc, <- So, <- Ha, app_assoc, <- (J2 eq_refl). split; [apply prefix_refl|reflexivity].
    + rewrite Ha, app_nil_r in So. rewrite <- app_assoc, <- So. split; [apply prefix_app; exact J1|]. rewrite Hc'. discriminate.
  - rewrite app_nil_r. exact J.
Qed.

Lemma j_in_end sid st h k : j_in sid st h -> j_in sid (if sid =? k then None else st) h.
Proof. intros J. destruct (sid =? k); [apply j_in_weak in J; exact J|exact J]. Qed.
Lemma j_out_end sid st h k : j_out sid st h -> j_out sid (if sid =? k then None else st) h.
Proof. intros J. destruct (sid =? k); [apply j_out_weak in J; exact J|exact J]. Qed.

(** [post]: what is sent right after the event. *)
Lemma j_out_sess sid st h k s e s' o pre post :
  j_out sid st h -> (sid = k -> st = Some s) -> sess_step s e = (s', o) ->
  (forall acc, fold_left (data_out_step sid) pre acc = acc) ->
  (forall acc, fold_left (from_service_step sid) pre acc = acc) ->
  (forall acc, fold_left (data_out_step sid) post acc = acc ++ (if sid =? k then SessionSpec.sent o else [])) ->
  (forall acc, fold_left (from_service_step sid) post acc = acc) ->
  j_out sid (if sid =? k then Some s' else st) (h ++ pre ++ XMgr (OSess k e o) :: post).
Proof.
  intros J Hst Hs Hp1 Hp2 Hq1 Hq2. pose proof (sess_step_ok 0 s e) as So. rewrite Hs in So.
  destruct So as [_ So _ _ _ _ _].
  unfold j_out in *. rewrite app_assoc, data_out_app, from_service_app. cbn [fold_left]. rewrite Hq1, Hq2.
  rewrite data_out_app, from_service_app, Hp1, Hp2.
  cbn [data_out_step from_service_step]. rewrite (N.eqb_sym k sid). destruct (N.eqb_spec sid k) as [->|Nk]; cbv iota.
  - rewrite (Hst eq_refl) in J. rewrite J, <- !app_assoc. f_equal. exact So.
  - rewrite app_nil_r. exact J.
Qed.

Lemma j_in_open sid st h k t mac a svc W b1 b2 :
  j_in sid st h -> j_in sid (if sid =? k then Some (with_mgr (sess_new svc k W) b1 b2) else st) (h ++ [XMgr (OOpen k t mac a)]).
Proof.
  intros J. unfold j_in in *. rewrite data_in_app, to_service_app. cbn [fold_left data_in_step to_service_step].
  rewrite (N.eqb_sym k sid). destruct (sid =? k); [|exact J]. cbn. split; [apply prefix_refl|reflexivity].
Qed.
Lemma j_out_open sid st h k t mac a svc W b1 b2 :
  j_out sid st h -> j_out sid (if sid =? k then Some (with_mgr (sess_new svc k W) b1 b2) else st) (h ++ [XMgr (OOpen k t mac a)]).
Proof.
  intros J. unfold j_out in *. rewrite data_out_app, from_service_app. cbn [fold_left data_out_step from_service_step].
  rewrite (N.eqb_sym k sid). destruct (sid =? k); [|exact J]. reflexivity.
Qed.

(** ** Sessions on the wire *)
Definition labelled (g : mgr) : Prop :=
  forall k s, find_sess g k = Some s -> s_session s = k /\ s_service s <> 0 /\ k < 2 ^ 24.

Lemma kept s e : s_session (fst (sess_step s e)) = s_session s /\ s_service (fst (sess_step s e)) = s_service s.
Proof.
  pose proof (sess_step_ok 0 s e) as So. destruct (sess_step s e) as [s' o]. destruct So. cbn [fst]. tauto.
Qed.

Lemma short_land k : k < 2 ^ 24 -> N.land k 16777215 = k.
Proof. intros H. change 16777215 with (N.ones 24). rewrite N.land_ones. apply N.mod_small. exact H. Qed.

Lemma find_set g k s sid : find_sess (set_sess g k s) sid = if sid =? k then Some s else find_sess g sid.
Proof. unfold find_sess, set_sess, set_sessions. cbn [g_sessions]. apply alookup_insert. Qed.
Lemma find_remove g k sid : alookup sid (aremove k (g_sessions g)) = if sid =? k then None else find_sess g sid.
Proof. apply alookup_remove. Qed.

Lemma find_wake g sid : find_sess (wake_task g) sid = find_sess g sid.
Proof. unfold wake_task. destruct (g_task g); reflexivity. Qed.

(** What is sent after a poll of the session manager. *)
Definition handed (o : list mobs) : list cobs := match polled_msg o with Some m => [XSent m] | None => [] end.

Lemma take_shape f s t s' f' o : sess_take f s = (t, s', f', o) ->
  match t with
  | TkMsg m => (exists c, o = [SentAck c] /\ m = amsg_of_cmsg c) \/ o = [SentData m]
  | _ => o = []
  end.
Proof.
  intros H. unfold sess_take in H. destruct (0 <? s_written s).
  - destruct (next_id f). injection H as <- <- <- <-. left. eexists. split; reflexivity.
  - destruct (firstn _ _) as [|d0 d].
    + destruct (s_closed _); [destruct (s_error _)|]; injection H as <- <- <- <-; reflexivity.
    + injection H as <- <- <- <-. right. reflexivity.
Qed.

Lemma take_hands f s t s' f' o k : sess_take f s = (t, s', f', o) -> s_session s = k -> s_service s <> 0 -> k < 2 ^ 24 ->
  match t with
  | TkMsg m => forall sid acc, data_out_step sid acc (XSent m) = acc ++ (if sid =? k then SessionSpec.sent o else [])
  | _ => SessionSpec.sent o = []
  end.
Proof.
  intros H Hk Hs Hl. pose proof (take_shape _ _ _ _ _ _ H) as Sh. pose proof (take_ok 0 s f EClose) as So. rewrite H in So.
  destruct So as [_ _ _ _ _ _ So]. destruct t as [m| | |]; try (rewrite Sh; reflexivity).
  intros sid acc. destruct Sh as [(c & -> & ->)| ->].
  - cbn. destruct (sid =? k); now rewrite app_nil_r.
  - inversion So as [|? ? Hg Hz]; subst. destruct Hg as (_ & E1 & E2). cbn [data_out_step]. rewrite E1, E2, (short_land _ Hl).
    apply N.eqb_neq in Hs. rewrite Hs. cbn [negb andb]. rewrite N.eqb_sym. destruct (sid =? s_session s); [|now rewrite app_nil_r].
    cbn. now rewrite app_nil_r.
Qed.

Record grown (h : list cobs) (g g' : mgr) (o : list mobs) : Prop := {
  gr_in : forall sid, j_in sid (find_sess g sid) h -> j_in sid (find_sess g' sid) (h ++ map XMgr o);
  gr_out : forall sid, labelled g -> j_out sid (find_sess g sid) h -> j_out sid (find_sess g' sid) (h ++ map XMgr o ++ handed o);
  gr_lab : labelled g -> labelled g';
  gr_queue : g_queue g' = g_queue g
}.

Lemma data_in_none sid acc : fold_left (data_in_step sid) [] acc = acc ++ (if sid =? sid then [] else []).
Proof. rewrite N.eqb_refl. now rewrite app_nil_r. Qed.

Lemma labelled_set g k s e s' o : find_sess g k = Some s -> sess_step s e = (s', o) -> labelled g -> labelled (set_sess g k s').
Proof.
  intros F Hs L k' s1. rewrite find_set. destruct (N.eqb_spec k' k) as [->|]; [|apply L].
  intros E. injection E as <-. destruct (L _ _ F) as (A & B & C). pose proof (kept s e) as [K1 K2]. rewrite Hs in K1, K2. cbn in K1, K2.
  rewrite K1, K2. auto.
Qed.

Lemma labelled_remove g k : labelled g -> forall g', (forall sid, find_sess g' sid = if sid =? k then None else find_sess g sid) -> labelled g'.
Proof. intros L g' E k' s. rewrite E. destruct (k' =? k); [discriminate|apply L]. Qed.

Lemma grown_ext h g g1 g' o : (forall sid, find_sess g1 sid = find_sess g sid) -> g_queue g1 = g_queue g -> grown h g1 g' o -> grown h g g' o.
Proof.
  intros E Eq [A B C D]. assert (L : labelled g -> labelled g1) by (intros L k s; rewrite E; apply L). split.
  - intros sid. rewrite <- E. apply A.
  - intros sid Lg. rewrite <- E. apply B. auto.
  - auto.
  - congruence.
Qed.

(** The end of a session. *)
Lemma grown_end h g k f s s' so code g1 m g2 :
  find_sess g k = Some s -> sess_step s (ETake f) = (s', so) -> SessionSpec.sent so = [] ->
  (forall sid, find_sess g1 sid = if sid =? k then None else find_sess g sid) -> g_queue g1 = g_queue g ->
  create_hup g1 k code = (m, g2) ->
  grown h g g2 [OSess k (ETake f) so; OMsg (EndOf k code) m].
Proof.
  intros F Hs Hn E Eq Hh.
  assert (E2 : forall sid, find_sess g2 sid = if sid =? k then None else find_sess g sid).
  { intros sid. rewrite <- E. unfold create_hup in Hh. destruct (next_id _). injection Hh as <- <-. reflexivity. }
  assert (m_service m = 0) as M0.
  { unfold create_hup in Hh. destruct (next_id _). injection Hh as <- <-. reflexivity. }
  split.
  - intros sid J. rewrite E2. cbn [map].
    change [XMgr (OSess k (ETake f) so); XMgr (OMsg (EndOf k code) m)] with ([XMgr (OSess k (ETake f) so)] ++ [XMgr (OMsg (EndOf k code) m)]).
    rewrite app_assoc. apply j_in_dull; [repeat constructor|].
    assert (J' : j_in sid (if sid =? k then Some s' else find_sess g sid) (h ++ [] ++ [XMgr (OSess k (ETake f) so)])).
    { apply (j_in_sess sid (find_sess g sid) h k s _ s' so [] J); auto.
      - intros ->; exact F.
      - intros acc. cbn [fold_left]. destruct (sid =? k); now rewrite app_nil_r. }
    apply (j_in_end _ _ _ k) in J'. destruct (sid =? k); exact J'.
  - intros sid L J. rewrite E2. unfold handed. cbn [map polled_msg].
    change ([XMgr (OSess k (ETake f) so); XMgr (OMsg (EndOf k code) m)] ++ [XSent m])
      with ([XMgr (OSess k (ETake f) so)] ++ [XMgr (OMsg (EndOf k code) m); XSent m]).
    rewrite app_assoc. apply j_out_dull; [repeat constructor; exact M0|].
    assert (J' : j_out sid (if sid =? k then Some s' else find_sess g sid) (h ++ [] ++ [XMgr (OSess k (ETake f) so)])).
    { apply (j_out_sess sid (find_sess g sid) h k s _ s' so [] [] J); auto.
      - intros ->; exact F.
      - intros acc. cbn [fold_left]. rewrite Hn. destruct (sid =? k); now rewrite app_nil_r. }
    apply (j_out_end _ _ _ k) in J'. destruct (sid =? k); exact J'.
  - intros L. eapply labelled_remove; eauto.
  - rewrite <- Eq. unfold create_hup in Hh. destruct (next_id _). injection Hh as <- <-. reflexivity.
Qed.

Lemma loop_grown : forall n g h r g' o, poll_loop n g = (r, g', o) -> grown h g g' o.
Proof.
  induction n as [|n IH]; intros g h r g' o H; cbn [poll_loop] in H.
  { injection H as <- <- <-. split; auto; intros; rewrite ?app_nil_r; auto. }
  destruct (g_order g) as [|k rest]; [eapply IH; eauto|].
  destruct (find_sess (set_order g rest) k) as [s|] eqn:F.
  2: { eapply grown_ext; [| |eapply IH; eauto]; reflexivity. }
  change (find_sess (set_order g rest) k) with (find_sess g k) in F.
  cbn [set_order g_factory] in H.
  destruct (sess_take (g_factory g) s) as [[[t s'] f'] so] eqn:T.
  assert (Hs : sess_step s (ETake (g_factory g)) = (s', so)) by (cbn [sess_step]; now rewrite T).
  pose proof (take_shape _ _ _ _ _ _ T) as Sh.
  destruct t as [m| | |].
  - injection H as <- <- <-. split.
    + intros sid J. change (find_sess (set_order ?x ?l) sid) with (find_sess x sid). rewrite find_set.
      change (find_sess (set_factory (set_order g rest) f') sid) with (find_sess g sid).
      change (map XMgr [OSess k (ETake (g_factory g)) so; OMsg (FromSession k) m])
        with ([XMgr (OSess k (ETake (g_factory g)) so)] ++ [XMgr (OMsg (FromSession k) m)]).
      rewrite app_assoc. apply j_in_dull; [repeat constructor|].
      apply (j_in_sess sid (find_sess g sid) h k s _ s' so [] J); auto.
      * intros ->; exact F.
      * intros acc. cbn [fold_left]. destruct (sid =? k); now rewrite app_nil_r.
    + intros sid L J. change (find_sess (set_order ?x ?l) sid) with (find_sess x sid). rewrite find_set.
      change (find_sess (set_factory (set_order g rest) f') sid) with (find_sess g sid).
      apply (j_out_sess sid (find_sess g sid) h k s _ s' so [] [XMgr (OMsg (FromSession k) m); XSent m] J); auto.
      * intros ->; exact F.
      * intros acc. cbn [fold_left]. change (data_out_step sid acc (XMgr (OMsg (FromSession k) m))) with acc.
        destruct (L _ _ F) as (L1 & L2 & L3). apply (take_hands _ _ _ _ _ _ _ T L1 L2 L3).
    + intros L. exact (labelled_set _ _ _ _ _ _ F Hs L).
    + reflexivity.
  - destruct (create_hup _ k EC_CONNECTION_ERROR) as [hm g3] eqn:Hh. injection H as <- <- <-.
    eapply grown_end; [exact F|exact Hs|now rewrite Sh| | |exact Hh]; [|reflexivity].
    intros sid. exact (find_remove g k sid).
  - destruct (create_hup _ k EC_NO_ERROR) as [hm g3] eqn:Hh. injection H as <- <- <-.
    eapply grown_end; [exact F|exact Hs|now rewrite Sh| | |exact Hh]; [|reflexivity].
    intros sid. exact (find_remove g k sid).
  - match type of H with (match poll_loop n ?x with _ => _ end) = _ => set (g2 := x) in H; destruct (poll_loop n g2) as [[r3 g3] os] eqn:P end.
    injection H as <- <- <-.
    assert (E2 : forall sid, find_sess g2 sid = if sid =? k then Some s' else find_sess g sid).
    { intros sid. unfold g2. change (find_sess (set_order ?x ?l) sid) with (find_sess x sid). rewrite find_set. reflexivity. }
    assert (L2 : labelled g -> labelled g2).
    { intros L. exact (labelled_set _ _ _ _ _ _ F Hs L). }
    pose proof (fun h => IH g2 h _ _ _ P) as G. split.
    + intros sid J. cbn [map]. change (XMgr ?x :: ?l) with ([XMgr x] ++ l). rewrite app_assoc. apply (G _).
      rewrite E2. apply (j_in_sess sid (find_sess g sid) h k s _ s' so [] J); auto.
      * intros ->; exact F.
      * intros acc. cbn [fold_left]. destruct (sid =? k); now rewrite app_nil_r.
    + intros sid L J. unfold handed. cbn [map polled_msg]. fold (handed os).
      change ((XMgr ?x :: ?l) ++ ?m) with ([XMgr x] ++ l ++ m). rewrite app_assoc. apply (G _); [auto|].
      rewrite E2. apply (j_out_sess sid (find_sess g sid) h k s _ s' so [] [] J); auto.
      * intros ->; exact F.
      * intros acc. cbn [fold_left]. rewrite Sh. destruct (sid =? k); now rewrite app_nil_r.
    + intros L. apply (G h). auto.
    + exact (gr_queue _ _ _ _ (G h)).
Qed.

(** ** The connection *)
Definition okh (h : list cobs) : Prop := control_has_no_address h /\ short_ids h.

Lemma okh_app h o : okh (h ++ o) -> okh h.
Proof.
  intros [A B]. split.
  - intros e m s Hi. apply (A e m s). apply in_or_app. auto.
  - intros sid t mac a Hi. apply (B sid t mac a). apply in_or_app. auto.
Qed.

Definition ctl (m : amsg) : Prop := m_service m = 0.

Record e2e (c : ctx) (h : list cobs) : Prop := {
  e_in : forall sid, j_in sid (find_sess (c_mgr c) sid) h;
  e_out : okh h -> labelled (c_mgr c) /\ forall sid, j_out sid (find_sess (c_mgr c) sid) h;
  e_queue : Forall ctl (g_queue (c_mgr c));
  e_msgs : Forall ctl (c_messages c)
}.

Definition weak (h : list cobs) : Prop :=
  forall sid, starts_with_bytes (data_in sid h) (to_service sid h) /\
              (okh h -> starts_with_bytes (from_service sid h) (data_out sid h)).

Lemma e2e_weak c h : e2e c h -> weak h.
Proof. intros [A B _ _] sid. split; [eapply j_in_weak; eauto|]. intros O. eapply j_out_weak. apply B. exact O. Qed.

Lemma e2e_dull c c' h o : e2e c h -> Forall dull o -> (forall sid, find_sess (c_mgr c') sid = find_sess (c_mgr c) sid) ->
  Forall ctl (g_queue (c_mgr c')) -> Forall ctl (c_messages c') -> e2e c' (h ++ o).
Proof.
  intros [A B C D] F E Q M. split; auto.
  - intros sid. rewrite E. apply j_in_dull; auto.
  - intros O. apply okh_app in O. destruct (B O) as [L J]. split.
    + intros k s. rewrite E. apply L.
    + intros sid. rewrite E. apply j_out_dull; auto.
Qed.

Lemma poll_e2e c h p c' o : e2e c h -> ctx_poll c = (p, c', o) ->
  match p with
  | PReady m => e2e c' (h ++ o ++ [XSent m])
  | _ => e2e c' (h ++ o)
  end.
Proof.
  intros E H. pose proof E as [A B C D]. unfold ctx_poll in H. destruct (is_closed c).
  { injection H as <- <- <-. rewrite app_nil_r. exact E. }
  destruct (c_messages c) as [|m q] eqn:Ms.
  - destruct (mgr_poll (c_mgr c)) as [g mo] eqn:P. unfold mgr_poll in P. destruct (g_queue (c_mgr c)) as [|m0 q0] eqn:Q.
    + destruct (poll_loop (length (g_order (c_mgr c))) (c_mgr c)) as [[r g1] o1] eqn:Lp.
      pose proof (loop_grown _ _ h _ _ _ Lp) as [G1 G2 G3 G4].
      assert (mo = o1 /\ (forall sid, find_sess g sid = find_sess g1 sid) /\ g_queue g = g_queue g1) as (-> & Eg & Egq).
      { destruct r; injection P as <- <-; repeat split. }
      assert (E1 : forall c1, c_mgr c1 = g -> c_messages c1 = [] -> e2e c1 (h ++ map XMgr o1 ++ handed o1)).
      { intros c1 Ec Em. split.
        - intros sid. rewrite Ec, Eg, app_assoc. 
          assert (J : j_in sid (find_sess g1 sid) (h ++ map XMgr o1)) by (apply G1; apply A).
          unfold handed. destruct (polled_msg o1) as [m|]; [|now rewrite app_nil_r].
          unfold j_in in *. rewrite data_in_app, to_service_app. exact J.
        - intros O. apply okh_app in O. destruct (B O) as [L J]. rewrite Ec. split.
          + intros k s. rewrite Eg. apply G3. exact L.
          + intros sid. rewrite Eg. apply G2; auto.
        - rewrite Ec, Egq, G4, Q. constructor.
        - rewrite Em. constructor. }
      unfold handed in E1. destruct (polled_msg o1) as [m|].
      * injection H as <- <- <-. apply E1; [reflexivity|exact Ms].
      * injection H as <- <- <-. rewrite app_nil_r in E1. apply E1; [reflexivity|exact Ms].
    + injection P as <- <-. cbn [polled_msg] in H. injection H as <- <- <-. inversion C; subst.
      apply (e2e_dull c); auto.
      * repeat constructor. assumption.
      * cbn. rewrite Ms. constructor.
  - injection H as <- <- <-. inversion D; subst. apply (e2e_dull c); auto. repeat constructor. assumption.
Qed.

(** Messages from the server. *)
Lemma queue_hup g k code m g' : create_hup g k code = (m, g') -> Forall ctl (g_queue g) ->
  Forall ctl (g_queue (wake_task (set_queue g' (g_queue g' ++ [m])))) /\
  (forall sid, find_sess (wake_task (set_queue g' (g_queue g' ++ [m]))) sid = find_sess g sid).
Proof.
  intros H F. unfold create_hup in H. destruct (next_id _). injection H as <- <-. split.
  - unfold wake_task, set_queue. destruct (g_task _); cbn; apply Forall_app; split; auto; repeat constructor.
  - intros sid. rewrite find_wake. reflexivity.
Qed.

Lemma send_e2e t c h o m : e2e c h -> m_service (amsg_of_cmsg m) = 0 -> Forall dull o ->
  e2e (fst (send_control t c m)) (h ++ o ++ snd (send_control t c m)).
Proof.
  intros E _ F. unfold send_control. cbn [fst snd]. apply (e2e_dull c).
  - exact E.
  - apply Forall_app. split; [exact F|repeat constructor].
  - intros sid. cbn. destruct (c_task c); reflexivity.
  - cbn. destruct (c_task c); apply E.
  - assert (Forall ctl (c_messages c ++ [amsg_of_cmsg m])).
    { apply Forall_app. split; [apply E|repeat constructor]. }
    cbn. destruct (c_task c); assumption.
Qed.

Lemma e2e_ids c h id c1 : e2e c h -> c_next_id c = (id, c1) -> e2e c1 h.
Proof.
  unfold c_next_id. destruct (next_id _) as [i f]. intros E H. injection H as <- <-. rewrite <- (app_nil_r h).
  apply (e2e_dull c); [exact E|constructor|reflexivity|apply E|apply E].
Qed.

Lemma triple {X Y Z : Type} (a a' : X) (b b' : Y) (c c' : Z) : (a, b, c) = (a', b', c') -> a = a' /\ b = b' /\ c = c'.
Proof. intros H. injection H. auto. Qed.

Lemma control_e2e t e c m cm r c' o h : e2e c h -> m_service m = 0 -> process_control t e c cm = (r, c', o) -> r = None ->
  e2e c' (h ++ XRecv e m :: o).
Proof.
  intros E M0 H Hr. pose proof E as [A B C D].
  assert (Rd : Forall dull [XRecv e m]) by (repeat constructor; exact M0).
  assert (Same : forall c1, c_mgr c1 = c_mgr c -> c_messages c1 = c_messages c -> forall o1, Forall dull o1 -> e2e c1 (h ++ XRecv e m :: o1)).
  { intros c1 E1 E2 o1 F1. assert (Forall dull (XRecv e m :: o1)) by (constructor; [exact M0|exact F1]). apply (e2e_dull c); auto; try (rewrite E1; auto); try (rewrite E2; auto). }
  assert (Er : e2e c (h ++ [XRecv e m])) by (apply Same; auto).
  unfold process_control in H.
  destruct (message_type (cm_type cm)) eqn:T, (cm_body cm) eqn:Bd;
    repeat match type of H with context [if c_established c then _ else _] => destruct (c_established c) end;
    try (injection H as <- <- <-; discriminate Hr).
  all: try (destruct (c_next_id c) as [idd cc] eqn:Ni; apply triple in H; destruct H as (_ & <- & <-); pose proof (e2e_ids _ _ _ _ E Ni) as Ec;
    match goal with |- e2e (fst (send_control ?t ?c ?x)) _ => exact (send_e2e t c h [XRecv e m] x Ec eq_refl Rd) end).
  all: try (apply triple in H; destruct H as (_ & <- & <-); match goal with |- e2e (fst (send_control ?t ?c ?x)) _ => exact (send_e2e t c h [XRecv e m] x E eq_refl Rd) end).
  all: try (injection H as <- <- <-; apply Same; [reflexivity|reflexivity|repeat constructor]).
  all: try (injection H as <- <- <-; apply Same; [| |constructor]; cbn; destruct (c_task c); reflexivity).
  - destruct (process_ack e c (cm_id cm) err) as [rr cc] eqn:Pa; injection H as <- <- <-; subst rr.
    assert (c_mgr cc = c_mgr c /\ c_messages cc = c_messages c) as [Z1 Z2]; [|apply Same; [exact Z1|exact Z2|constructor]].
    unfold process_ack, handshake_ack in Pa; destruct (c_acks c) as [|[t1 i1] rest]; try discriminate;
    destruct (cm_id cm =? i1); try discriminate; destruct (c_established c); try (injection Pa as <-; split; reflexivity).
    destruct (err =? EC_NO_ERROR); [destruct (e_diagnostic e); injection Pa as <-; split; reflexivity|].
    destruct (err =? EC_UNAUTHORIZED); try discriminate; destruct (err =? EC_UNSUPPORTED_PROTOCOL_VERSION); try discriminate;
    destruct (err =? EC_INTERNAL_SERVER_ERROR); discriminate.
  - apply triple in H. destruct H as (_ & <- & <-). unfold lift_mgr. destruct (mgr_close _ _) as [g mo] eqn:G. cbn [fst snd].
    unfold mgr_close in G. destruct (find_sess (c_mgr c) session_id) as [s|] eqn:F.
    + destruct (sess_step s EClose) as [s' so] eqn:Hs. injection G as <- <-. cbn [map].
      pose proof (step_sends _ _ _ _ Hs) as Hn. cbn in Hn.
      change (XRecv e m :: [?x; ?y]) with ([XRecv e m] ++ [x] ++ [y]). rewrite !app_assoc, <- (app_assoc h).
      assert (Ef : forall sid, find_sess (c_mgr (set_mgr c (set_sessions (c_mgr c) (aremove session_id (g_sessions (c_mgr c)))))) sid
                   = if sid =? session_id then None else find_sess (c_mgr c) sid).
      { intros sid. exact (find_remove (c_mgr c) session_id sid). }
      split.
      * intros sid. rewrite Ef. apply j_in_dull; [repeat constructor|].
        assert (J' : j_in sid (if sid =? session_id then Some s' else find_sess (c_mgr c) sid) (h ++ [XRecv e m] ++ [XMgr (OSess session_id EClose so)])).
        { apply (j_in_sess sid (find_sess (c_mgr c) sid) h session_id s _ s' so [XRecv e m] (A sid)); auto.
          - intros ->; exact F.
          - intros acc. cbn [fold_left data_in_step pushed]. rewrite M0. cbn. destruct (sid =? session_id); now rewrite app_nil_r. }
        apply (j_in_end _ _ _ session_id) in J'. destruct (sid =? session_id); exact J'.
      * intros O. assert (O' : okh h) by (rewrite <- app_assoc in O; exact (okh_app _ _ O)). destruct (B O') as [L J]. split.
        -- exact (labelled_remove _ session_id L _ Ef).
        -- intros sid. rewrite Ef. apply j_out_dull; [repeat constructor|].
           assert (J' : j_out sid (if sid =? session_id then Some s' else find_sess (c_mgr c) sid) (h ++ [XRecv e m] ++ [XMgr (OSess session_id EClose so)])).
           { apply (j_out_sess sid (find_sess (c_mgr c) sid) h session_id s _ s' so [XRecv e m] [] (J sid)); auto.
             - intros ->; exact F.
             - intros acc. cbn [fold_left]. rewrite Hn. destruct (sid =? session_id); now rewrite app_nil_r. }
           apply (j_out_end _ _ _ session_id) in J'. destruct (sid =? session_id); exact J'.
      * exact C.
      * exact D.
    + injection G as <- <-. apply Same; [reflexivity|reflexivity|constructor].
  - apply triple in H. destruct H as (_ & <- & <-). unfold lift_mgr. destruct (mgr_data_ack _ _ _) as [g mo] eqn:G. cbn [fst snd].
    unfold mgr_data_ack in G. destruct (find_sess (c_mgr c) session_id) as [s|] eqn:F.
    + destruct (sess_step s (EDataAck length)) as [s' so] eqn:Hs. injection G as <- <-. cbn [map].
      pose proof (step_sends _ _ _ _ Hs) as Hn. cbn in Hn.
      change (XRecv e m :: [?x]) with ([XRecv e m] ++ [x]).
      split.
      * intros sid. cbn [set_mgr c_mgr]. rewrite find_set.
        apply (j_in_sess sid (find_sess (c_mgr c) sid) h session_id s _ s' so [XRecv e m] (A sid)); auto.
        -- intros ->; exact F.
        -- intros acc. cbn [fold_left data_in_step pushed]. rewrite M0. cbn. destruct (sid =? session_id); now rewrite app_nil_r.
      * intros O. destruct (B (okh_app _ _ O)) as [L J]. split.
        -- exact (labelled_set _ _ _ _ _ _ F Hs L).
        -- intros sid. cbn [set_mgr c_mgr]. rewrite find_set.
           apply (j_out_sess sid (find_sess (c_mgr c) sid) h session_id s _ s' so [XRecv e m] [] (J sid)); auto.
           ++ intros ->; exact F.
           ++ intros acc. cbn [fold_left]. rewrite Hn. destruct (sid =? session_id); now rewrite app_nil_r.
      * exact C.
      * exact D.
    + injection G as <- <-. apply Same; [reflexivity|reflexivity|constructor].
  - apply triple in H. destruct H as (_ & <- & <-). unfold lift_mgr. destruct (mgr_connect _ _ _ _) as [g mo] eqn:G. cbn [fst snd].
    unfold mgr_connect in G. destruct (connect_inner (c_mgr c) (v_get (e_table e)) service_id session_id) as [[[ty mac] a]|] eqn:Ci.
    + injection G as <- <-. cbn [map].
      assert (Ef : forall x b sid, find_sess (set_sess (wake_task (set_order (c_mgr c) (g_order (c_mgr c) ++ [x]))) x b) sid
                   = if sid =? x then Some b else find_sess (c_mgr c) sid).
      { intros x b sid. rewrite find_set. rewrite find_wake. reflexivity. }
      change (XRecv e m :: [?x]) with ([XRecv e m] ++ [x]). rewrite app_assoc. split.
      * intros sid. cbn [set_mgr c_mgr]. rewrite Ef. apply j_in_open. apply Er.
      * intros O. destruct (e_out _ _ Er (okh_app _ _ O)) as [L J]. split.
        -- intros k s. cbn [set_mgr c_mgr]. rewrite Ef. destruct (N.eqb_spec k session_id) as [->|]; [|apply L].
           intros Es. injection Es as <-. split; [reflexivity|]. cbn [with_mgr sess_new s_service].
           unfold connect_inner in Ci. destruct (find_sess _ _); [discriminate|].
           destruct (v_get (e_table e) service_id) as [sv|] eqn:Gt; [|discriminate].
           destruct (s_addr sv) as [ad|] eqn:Sa; [|discriminate]. destruct O as [O1 O2]. split.
           ++ intros ->. rewrite (O1 e m sv) in Sa; [discriminate| |exact Gt]. rewrite <- app_assoc. apply in_or_app. right. left. reflexivity.
           ++ apply (O2 session_id ty mac a). apply in_or_app. right. left. reflexivity.
        -- intros sid. cbn [set_mgr c_mgr]. rewrite Ef. apply j_out_open. apply J.
      * cbn [set_mgr c_mgr]. unfold set_sess, set_sessions, wake_task. cbn. destruct (g_task (c_mgr c)); exact C.
      * exact D.
    + destruct (create_hup (c_mgr c) session_id EC_CONNECTION_ERROR) as [hm g1] eqn:Hh. injection G as <- <-.
      destruct (queue_hup _ _ _ _ _ Hh C) as [Q1 Q2]. apply (e2e_dull c); auto. constructor; [exact M0|repeat constructor].
Qed.

Lemma weak_recv c h e m : e2e c h -> weak (h ++ [XRecv e m]).
Proof.
  intros E sid. destruct (e2e_weak _ _ E sid) as [A B]. split.
  - rewrite data_in_app, to_service_app. cbn. destruct (_ && _); [apply prefix_app|]; exact A.
  - intros O. rewrite data_out_app, from_service_app. apply B. exact (okh_app _ _ O).
Qed.

Lemma control_fails t e c m r c' o : process_control t e c m = (r, c', o) -> r <> None -> o = [].
Proof.
  intros H Hr. unfold process_control in H.
  destruct (message_type (cm_type m)) eqn:T, (cm_body m) eqn:B;
    repeat match type of H with context [if c_established c then _ else _] => destruct (c_established c) end;
    try (injection H as <- <- <-; congruence).
  all: try (destruct (process_ack e c (cm_id m) err) as [rr cc]; injection H as <- <- <-; reflexivity).
  all: try (destruct (c_next_id c) as [idd cc]; injection H as <- <- <-; congruence).
Qed.

Lemma message_e2e t e c m r c' o h : e2e c h -> is_closed c = false -> process_message t e c m = (r, c', o) ->
  match r with None => e2e c' (h ++ o) | Some _ => weak (h ++ o) end.
Proof.
  intros E Nc H. pose proof E as [A B C D]. unfold process_message in H. rewrite Nc in H.
  match type of H with (match ?X with _ => _ end) = _ => destruct X as [[r0 c0] o0] eqn:X0 end.
  injection H as <- <- <-. destruct (N.eqb_spec (m_service m) 0) as [M0|Mn].
  - destruct (cmsg_from_bytes (m_payload m)) as [cm| |].
    + destruct r0 as [kd|].
      * rewrite (control_fails _ _ _ _ _ _ _ X0) by discriminate. eapply weak_recv; eauto.
      * eapply control_e2e; eauto.
    + injection X0 as <- <- <-. eapply weak_recv; eauto.
    + injection X0 as <- <- <-. eapply weak_recv; eauto.
  - destruct (c_established c); [|injection X0 as <- <- <-; eapply weak_recv; eauto].
    unfold lift_mgr in X0. destruct (mgr_send (c_mgr c) m) as [g mo] eqn:G. injection X0 as <- <- <-.
    unfold mgr_send in G. destruct (find_sess (c_mgr c) (m_session m)) as [s|] eqn:F.
    + destruct (sess_step s (EPush (m_payload m))) as [s' so] eqn:Hs. injection G as <- <-. cbn [map].
      pose proof (step_sends _ _ _ _ Hs) as Hn. cbn in Hn.
      change (XRecv e m :: [?x]) with ([XRecv e m] ++ [x]). apply N.eqb_neq in Mn. split.
      * intros sid. cbn [set_mgr c_mgr]. rewrite find_set.
        apply (j_in_sess sid (find_sess (c_mgr c) sid) h (m_session m) s _ s' so [XRecv e m] (A sid)); auto.
        -- intros ->; exact F.
        -- intros acc. cbn [fold_left data_in_step pushed]. rewrite Mn, (N.eqb_sym (m_session m) sid). cbn [negb andb].
           destruct (sid =? m_session m); [reflexivity|now rewrite app_nil_r].
      * intros O. destruct (B (okh_app _ _ O)) as [L J]. split.
        -- exact (labelled_set _ _ _ _ _ _ F Hs L).
        -- intros sid. cbn [set_mgr c_mgr]. rewrite find_set.
           apply (j_out_sess sid (find_sess (c_mgr c) sid) h (m_session m) s _ s' so [XRecv e m] [] (J sid)); auto.
           ++ intros ->; exact F.
           ++ intros acc. cbn [fold_left]. rewrite Hn. destruct (sid =? _); now rewrite app_nil_r.
      * exact C.
      * exact D.
    + destruct (create_hup (c_mgr c) (m_session m) EC_CONNECTION_ERROR) as [hm g1] eqn:Hh. injection G as <- <-.
      destruct (queue_hup _ _ _ _ _ Hh C) as [Q1 Q2]. cbn [map].
      change (XRecv e m :: [?x]) with ([XRecv e m] ++ [x]). rewrite app_assoc.
      assert (Er : e2e c (h ++ [XRecv e m])).
      { split; auto.
        - intros sid. specialize (A sid). unfold j_in in *. rewrite data_in_app, to_service_app. cbn [fold_left data_in_step to_service_step].
          apply N.eqb_neq in Mn. rewrite Mn. cbn [negb andb]. destruct (N.eqb_spec (m_session m) sid) as [<-|]; [|exact A].
          rewrite F in *. apply prefix_app. exact A.
        - intros O. destruct (B (okh_app _ _ O)) as [L J]. split; [exact L|]. intros sid. specialize (J sid).
          unfold j_out in *. rewrite data_out_app, from_service_app. exact J. }
      apply (e2e_dull c); auto. repeat constructor.
Qed.

Lemma feed_e2e c i r c' o h : e2e c h -> is_closed c = false -> feed_item c i = (r, c', o) ->
  match r with None => e2e c' (h ++ o) | Some _ => weak (h ++ o) end.
Proof.
  intros E Nc H. destruct i as [t e m| |]; cbn [feed_item] in H.
  - eapply message_e2e; eauto.
  - injection H as <- <- <-. rewrite app_nil_r. eapply e2e_weak; eauto.
  - injection H as <- <- <-. apply (e2e_dull c); [exact E|constructor|reflexivity|apply E|apply E].
Qed.

Definition after_poll (p : polled) (c : ctx) (h : list cobs) : Prop :=
  match p with
  | PReady m => e2e c (h ++ [XSent m])
  | PError _ => weak h
  | _ => e2e c h
  end.

Lemma loop_e2e : forall items c p c' o h, e2e c h -> client_loop c items = (p, c', o) -> after_poll p c' (h ++ o).
Proof.
  induction items as [|i items IH]; intros c p c' o h E; cbn [client_loop]; destruct (ctx_poll c) as [[p1 c1] o1] eqn:P;
    pose proof (poll_e2e _ _ _ _ _ E P) as E1; unfold after_poll.
  - destruct p1; intros H; injection H as <- <- <-; rewrite <- ?app_assoc; try exact E1. eapply e2e_weak; eauto.
  - destruct p1; try (intros H; injection H as <- <- <-; rewrite <- ?app_assoc; try exact E1; eapply e2e_weak; eauto; fail).
    assert (Nc : is_closed c1 = false) by (apply (poll_pending _ _ _ P)).
    destruct (feed_item c1 i) as [[r c2] o2] eqn:F. pose proof (feed_e2e _ _ _ _ _ _ E1 Nc F) as E2. destruct r.
    + intros H; injection H as <- <- <-. rewrite app_assoc. exact E2.
    + destruct (client_loop c2 items) as [[p3 c3] o3] eqn:L. intros H; injection H as <- <- <-.
      specialize (IH _ _ _ _ _ E2 L). rewrite <- !app_assoc in IH. exact IH.
Qed.

Lemma client_e2e items c p c' o h : e2e c h -> is_closed c = false -> client_poll c items = (p, c', o) -> after_poll p c' (h ++ o).
Proof.
  intros E Nc. destruct items as [|i items]; cbn [client_poll]; [apply loop_e2e; exact E|].
  destruct (feed_item c i) as [[r c2] o2] eqn:F. pose proof (feed_e2e _ _ _ _ _ _ E Nc F) as E2. destruct r.
  - intros H; injection H as <- <- <-. exact E2.
  - destruct (client_loop c2 items) as [[p3 c3] o3] eqn:L. intros H; injection H as <- <- <-.
    rewrite app_assoc. exact (loop_e2e _ _ _ _ _ _ E2 L).
Qed.

Lemma tick_e2e t c v0 v1 v2 r c' o h : e2e c h -> time_event t c v0 v1 v2 = (r, c', o) -> e2e c' (h ++ XTick t v0 v1 v2 :: o).
Proof.
  intros E H.
  assert (H' : Forall dull o /\ (forall sid, find_sess (c_mgr c') sid = find_sess (c_mgr c) sid) /\
               g_queue (c_mgr c') = g_queue (c_mgr c) /\ Forall ctl (c_messages c')).
  { pose proof (e_msgs _ _ E) as M.
    assert (S1 : forall t c m, Forall ctl (c_messages c) -> Forall dull (snd (send_control t c m)) /\
      (forall sid, find_sess (c_mgr (fst (send_control t c m))) sid = find_sess (c_mgr c) sid) /\
      g_queue (c_mgr (fst (send_control t c m))) = g_queue (c_mgr c) /\ Forall ctl (c_messages (fst (send_control t c m)))).
    { intros t0 c0 m0 M0. unfold send_control. cbn [fst snd]. split; [repeat constructor|].
      assert (Forall ctl (c_messages c0 ++ [amsg_of_cmsg m0])) by (apply Forall_app; split; [exact M0|repeat constructor]).
      cbn. destruct (c_task c0); repeat split; assumption. }
    unfold time_event in H. destruct (c_established c).
    2: { injection H as <- <- <-. repeat split; auto. }
    assert (P1 : exists c1 o1, (if (PING_PERIOD <=? t - c_last_ping c)%Z then send_ping t c else (c, [])) = (c1, o1) /\
       Forall dull o1 /\ (forall sid, find_sess (c_mgr c1) sid = find_sess (c_mgr c) sid) /\
       g_queue (c_mgr c1) = g_queue (c_mgr c) /\ Forall ctl (c_messages c1)).
    { destruct (_ <=? _)%Z; [|exists c, []; repeat split; auto].
      unfold send_ping, c_next_id. destruct (next_id _) as [id f]. unfold send_unconfirmed.
      destruct (S1 t (set_acks (set_mgr c (set_factory (c_mgr c) f)) (c_acks (set_mgr c (set_factory (c_mgr c) f)) ++ [(t, cm_id (mk_ping id))])) (mk_ping id) M) as (X1 & X2 & X3 & X4).
      destruct (send_control t _ (mk_ping id)) as [c2 o2]. cbn [fst snd] in *.
      eexists _, _. split; [reflexivity|]. repeat split; auto. }
    destruct P1 as (c1 & o1 & P1 & Y1 & Y2 & Y3 & Y4). rewrite P1 in H.
    assert (P2 : exists c2 o2, (if (UPDATE_CHECK_PERIOD <=? t - c_last_check c1)%Z then check_for_updates t c1 v0 v1 v2 else (c1, [])) = (c2, o2) /\
       Forall dull o2 /\ (forall sid, find_sess (c_mgr c2) sid = find_sess (c_mgr c1) sid) /\
       g_queue (c_mgr c2) = g_queue (c_mgr c1) /\ Forall ctl (c_messages c2)).
    { destruct (_ <=? _)%Z; [|exists c1, []; repeat split; auto].
      unfold check_for_updates. destruct (_ =? _); [eexists _, _; split; [reflexivity|]; repeat split; auto|].
      unfold send_update, c_next_id. destruct (next_id _) as [id f].
      destruct (S1 t (set_version (set_mgr c1 (set_factory (c_mgr c1) f)) (v_version v2)) (mk_update id (table_of_services (v_visible v1))) Y4) as (X1 & X2 & X3 & X4).
      destruct (send_control t _ _) as [c2 o2]. cbn [fst snd] in *.
      eexists _, _. split; [reflexivity|]. repeat split; auto. }
    destruct P2 as (c2 & o2 & P2 & W1 & W2 & W3 & W4). rewrite P2 in H. injection H as <- <- <-.
    split; [apply Forall_app; auto|]. split; [intros sid; now rewrite W2|]. split; [congruence|exact W4]. }
  destruct H' as (F & Ef & Eq & M). apply (e2e_dull c); auto.
  - constructor; [exact I|exact F].
  - rewrite Eq. apply E.
Qed.

Lemma transport_e2e c h sid te c' o : e2e c h -> lift_mgr c (mgr_step (c_mgr c) (MTransport sid te)) = (c', o) -> e2e c' (h ++ o).
Proof.
  intros E H. pose proof E as [A B C D]. unfold lift_mgr in H. cbn [mgr_step] in H.
  destruct (find_sess (c_mgr c) sid) as [s|] eqn:F.
  - destruct (sess_step s (sev_of te)) as [s' so] eqn:Hs. injection H as <- <-. cbn [map].
    pose proof (step_sends _ _ _ _ Hs) as Hn.
    assert (SessionSpec.sent so = []) as Hn' by (destruct te; exact Hn).
    assert (pushed (sev_of te) = []) as Hp by (destruct te; reflexivity). split.
    + intros k. cbn [set_mgr c_mgr]. rewrite find_set.
      apply (j_in_sess k (find_sess (c_mgr c) k) h sid s _ s' so [] (A k)); auto.
      * intros ->; exact F.
      * intros acc. cbn [fold_left]. rewrite Hp. destruct (k =? sid); now rewrite app_nil_r.
    + intros O. destruct (B (okh_app _ _ O)) as [L J]. split.
      * exact (labelled_set _ _ _ _ _ _ F Hs L).
      * intros k. cbn [set_mgr c_mgr]. rewrite find_set.
        apply (j_out_sess k (find_sess (c_mgr c) k) h sid s _ s' so [] [] (J k)); auto.
        -- intros ->; exact F.
        -- intros acc. cbn [fold_left]. rewrite Hn'. destruct (k =? sid); now rewrite app_nil_r.
    + exact C.
    + exact D.
  - injection H as <- <-. apply (e2e_dull c); [exact E|constructor|reflexivity|apply E|apply E].
Qed.
