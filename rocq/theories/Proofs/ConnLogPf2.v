(** The log of a connection shows neither the identity of the client nor the data of the sessions. *)
From Coq Require Import String NArith ZArith List Bool Lia.
From Verif.Model Require Import Bytes Text Frame Service Control Session Manager Client Logger Journal ConnLog.
From Verif.Spec Require Import ClientSpec SecrecySpec OpaqueSpec.
From Verif.Proofs Require Import SecrecyPf OpaquePf OpaquePf2.
Import ListNotations.
Local Open Scope N_scope.

Section Identity.
  Variable aprint : saddr -> bytes.
  Variable r r' : cmsg.
  Notation same := (same_context r r').

  Lemma feed_log_same c c' i : same c c' -> feed_log aprint c' i = feed_log aprint c i.
  Proof. intros S. apply ctx_shape in S. destruct S as [q [-> _]]. destruct i; reflexivity. Qed.
  Lemma poll_log_same c c' err : same c c' -> ctx_poll_log aprint c' err = ctx_poll_log aprint c err.
  Proof. intros S. apply ctx_shape in S. destruct S as [q [-> F]]. unfold ctx_poll_log. cbn [set_messages c_messages]. destruct F; reflexivity. Qed.
  Lemma time_log_same t c c' v0 : same c c' -> time_log t c' v0 = time_log t c v0.
  Proof.
    intros S. apply ctx_shape in S. destruct S as [q [-> _]]. unfold time_log. cbn [set_messages c_established c_last_ping].
    destruct (send_ping_adds t c) as [ext [_ B]]. specialize (B q). cbn beta in B. rewrite B. cbn [fst]. destruct (_ <=? _)%Z; reflexivity.
  Qed.
  Lemma loop_log_same err items : forall c c', same c c' -> loop_log aprint c' items err = loop_log aprint c items err.
  Proof.
    induction items as [|i items IH]; intros c c' S; cbn [loop_log]; rewrite (poll_log_same c c' err S);
      destruct (poll_rel r r' c c' S) as (p & p' & c1 & c1' & o & E & E' & P & R); rewrite E, E'.
    - destruct p, p'; cbn [same_polled] in P; try discriminate P; reflexivity.
    - destruct p, p'; cbn [same_polled] in P; try discriminate P; try reflexivity.
      rewrite (feed_log_same c1 c1' i R). destruct (adds3_rel r r' _ _ _ (feed_adds i c1) R) as (c2 & c2' & Q & Q' & S2). rewrite Q, Q'.
      destruct (fst (fst (feed_item c1 i))); [reflexivity|]. now rewrite (IH c2 c2' S2).
  Qed.
  Lemma client_log_same err c c' items : same c c' -> client_poll_log aprint c' items err = client_poll_log aprint c items err.
  Proof.
    intros S. destruct items as [|i items]; [now apply loop_log_same|]. unfold client_poll_log. rewrite (feed_log_same c c' i S).
    destruct (adds3_rel r r' _ _ _ (feed_adds i c) S) as (c2 & c2' & Q & Q' & S2). rewrite Q, Q'.
    destruct (fst (fst (feed_item c i))); [reflexivity|]. now rewrite (loop_log_same err items c2 c2' S2).
  Qed.
  Lemma conn_log_same k k' e err : same_conn r r' k k' -> conn_log aprint k' e err = conn_log aprint k e err.
  Proof.
    intros [S E]. unfold conn_log. rewrite <- E. destruct (k_result k); [reflexivity|]. destruct e as [items|t v0 v1 v2| |sid te]; try reflexivity.
    - now apply client_log_same.
    - destruct (same_redirect r r' _ _ S) as [_ ->]. destruct (is_closed (k_ctx k')); [reflexivity|now apply time_log_same].
  Qed.
  Lemma lines_same es : forall k k', same_conn r r' k k' -> conn_lines aprint k' es = conn_lines aprint k es.
  Proof.
    induction es as [|[e err] es IH]; intros k k' S; cbn [conn_lines]; [reflexivity|]. rewrite (conn_log_same k k' e err S).
    destruct (step_rel r r' e _ _ S) as (k1 & k1' & o & o' & E & E' & S1 & _). rewrite E, E'. cbn [fst]. now rewrite (IH _ _ S1).
  Qed.
End Identity.

Lemma log_secrecy aprint t i i' v1 v2 es : id_gateway i = id_gateway i' ->
  connection_log aprint t i' v1 v2 es = connection_log aprint t i v1 v2 es.
Proof.
  intros G. unfold connection_log. f_equal.
  destruct (connection_secrecy t i i' v1 v2 [] G) as (id & r & r' & k & k' & o & o' & _ & _ & E & E' & R & S & _).
  unfold connection in E, E'. destruct (conn_new t i v1 v2) as [k0 o0]. destruct (conn_new t i' v1 v2) as [k0' o0']. cbn [conn_run] in E, E'.
  injection E as <- _. injection E' as <- _. cbn [fst]. apply (lines_same aprint r r'). split; assumption.
Qed.

Section Data.
  Variable aprint : saddr -> bytes.
  Variable f : N -> N -> N.

  Lemma mlog_ren c e err : okc c -> plain_mev e -> mgr_log aprint (c_mgr (ren_ctx f c)) (ren_mev f e) err = mgr_log aprint (c_mgr c) e err.
  Proof. intros [M _] P. apply ren_log; assumption. Qed.
  Lemma feed_log_ren c i : okc c -> plain_item i -> feed_log aprint (ren_ctx f c) (ren_item f i) = feed_log aprint c i.
  Proof.
    intros K P. destruct i as [t e m| |]; try reflexivity. cbn [feed_log ren_item]. unfold message_log. change (is_closed (ren_ctx f c)) with (is_closed c).
    destruct (is_closed c); [reflexivity|].
    assert (S : m_service (ren_msg f m) = m_service m) by (unfold ren_msg; destruct (m_service m =? 0); reflexivity). rewrite S.
    change (c_established (ren_ctx f c)) with (c_established c).
    destruct (N.eqb_spec (m_service m) 0) as [Z|NZ].
    - assert (E : ren_msg f m = m) by (unfold ren_msg; rewrite Z; reflexivity). rewrite E. destruct (cmsg_from_bytes (m_payload m)) as [cm| |]; try reflexivity.
      unfold control_log. change (c_established (ren_ctx f c)) with (c_established c). f_equal. destruct (c_established c); [|reflexivity].
      destruct (message_type (cm_type cm)); try reflexivity.
      + destruct (cm_body cm) as [| | | |sid code| | | | |]; try reflexivity. unfold ses. f_equal. exact (mlog_ren c (MClose sid) [] K I).
      + destruct (cm_body cm) as [| |svc sid| | | | | | |]; try reflexivity. unfold ses. f_equal. exact (mlog_ren c (MConnect (v_get (e_table e)) svc sid) [] K P).
    - destruct (c_established c); [|reflexivity]. unfold ses. f_equal. exact (mlog_ren c (MSend m) [] K NZ).
  Qed.
  Lemma poll_log_ren c err : okc c -> ctx_poll_log aprint (ren_ctx f c) err = ctx_poll_log aprint c err.
  Proof.
    intros K. unfold ctx_poll_log. change (is_closed (ren_ctx f c)) with (is_closed c). destruct (is_closed c); [reflexivity|].
    change (c_messages (ren_ctx f c)) with (c_messages c). destruct (c_messages c); [|reflexivity]. unfold ses. f_equal. exact (mlog_ren c MPoll err K I).
  Qed.
  Lemma time_log_ren t c v0 : time_log t (ren_ctx f c) v0 = time_log t c v0.
  Proof.
    unfold time_log. destruct (ren_ping f t c) as [A _]. rewrite A. unfold ren2. cbn [fst].
    change (c_established (ren_ctx f c)) with (c_established c). change (c_last_ping (ren_ctx f c)) with (c_last_ping c).
    destruct (c_established c); [|reflexivity]. destruct (_ <=? _)%Z; reflexivity.
  Qed.
  Lemma loop_log_ren err items : forall c, okc c -> Forall plain_item items -> loop_log aprint (ren_ctx f c) (map (ren_item f) items) err = loop_log aprint c items err.
  Proof.
    induction items as [|i items IH]; intros c K P; cbn [loop_log map]; rewrite (poll_log_ren c err K); destruct (ren_ctx_poll f c K) as [A B]; rewrite A;
      destruct (ctx_poll c) as [[p c1] o1]; cbn [fst snd renp] in *.
    - destruct p; reflexivity.
    - destruct p; cbn [ren_polled]; try reflexivity. rewrite (feed_log_ren c1 i B (Forall_inv P)).
      destruct (ren_feed f c1 i B (Forall_inv P)) as [C D]. rewrite C. destruct (feed_item c1 i) as [[r c2] o2]. cbn [fst snd ren3] in *.
      destruct r; [reflexivity|]. now rewrite (IH c2 D (Forall_inv_tail P)).
  Qed.
  Lemma conn_log_ren k e err : okc (k_ctx k) -> plain_event e -> conn_log aprint (ren_conn f k) (ren_kev f e) err = conn_log aprint k e err.
  Proof.
    intros K P. unfold conn_log. cbn [ren_conn k_result k_ctx]. destruct (k_result k); [reflexivity|]. destruct e as [items|t v0 v1 v2| |sid te]; try reflexivity; cbn [ren_kev].
    - destruct items as [|i items]; [exact (loop_log_ren err [] _ K P)|]. unfold client_poll_log. cbn [map]. rewrite (feed_log_ren _ i K (Forall_inv P)).
      destruct (ren_feed f (k_ctx k) i K (Forall_inv P)) as [C D]. rewrite C. destruct (feed_item (k_ctx k) i) as [[r c2] o2]. cbn [fst snd ren3] in *.
      destruct r; [reflexivity|]. now rewrite (loop_log_ren err items c2 D (Forall_inv_tail P)).
    - change (is_closed (ren_ctx f (k_ctx k))) with (is_closed (k_ctx k)). destruct (is_closed (k_ctx k)); [reflexivity|apply time_log_ren].
  Qed.
  Lemma lines_ren es : forall k, okc (k_ctx k) -> Forall plain_event (map fst es) ->
    conn_lines aprint (ren_conn f k) (map (fun p => (ren_kev f (fst p), snd p)) es) = conn_lines aprint k es.
  Proof.
    induction es as [|[e err] es IH]; intros k K P; cbn [conn_lines map fst snd]; [reflexivity|]. rewrite (conn_log_ren k e err K (Forall_inv P)).
    destruct (ren_conn_step f k e K (Forall_inv P)) as [A B]. rewrite A. unfold renk. cbn [fst]. now rewrite (IH _ B (Forall_inv_tail P)).
  Qed.
  Lemma log_opaque t i v1 v2 es : Forall plain_event (map fst es) ->
    connection_log aprint t i v1 v2 (map (fun p => (ren_kev f (fst p), snd p)) es) = connection_log aprint t i v1 v2 es.
  Proof.
    intros P. unfold connection_log, conn_new. f_equal. destruct (start f t i v1 v2) as (K & A & _). destruct (ctx_new t i v1 v2) as [c o]. cbn [fst snd] in *.
    pose proof (lines_ren es {| k_ctx := c; k_result := None |} K P) as L. unfold ren_conn in L. cbn [k_ctx k_result] in L. rewrite A in L. exact L.
  Qed.
End Data.

Lemma bytes_check h : forallb (fun p => forallb (fun b => b <? 256) (m_payload (snd p))) (received h) = true -> bytes_received h.
Proof.
  intros H e m I. rewrite forallb_forall in H. assert (K : In (e, m) (received h)) by (unfold received; apply in_flat_map; exists (XRecv e m); split; [exact I|now left]).
  specialize (H _ K). cbn [snd] in H. rewrite forallb_forall in H. apply Forall_forall. intros b B. apply N.ltb_lt. exact (H b B).
Qed.
