(** The invariant of a running connection. *)
From Coq Require Import NArith ZArith List Bool Lia ZifyBool ZifyNat ZifyN.
From Verif.Model Require Import Bytes Frame Service Control Alist Session Manager Client.
From Verif.Spec Require Import ControlSpec ManagerSpec ClientSpec.
From Verif.Proofs Require Import BytesFacts ControlProofs AlistFacts ManagerProofs ClientProofs.
Import ListNotations.
Local Open Scope N_scope.

(** ** Histories grow at the end *)
Lemma received_app h o : received (h ++ o) = received h ++ received o.
Proof. apply flat_map_app. Qed.
Lemma sent_app h o : sent (h ++ o) = sent h ++ sent o.
Proof. apply flat_map_app. Qed.
Lemma produced_app h o : produced (h ++ o) = produced h ++ produced o.
Proof. apply flat_map_app. Qed.
Lemma mhist_app h o : manager_history (h ++ o) = manager_history h ++ manager_history o.
Proof. apply flat_map_app. Qed.
Lemma answers_app h o : answers (h ++ o) = answers h ++ answers o.
Proof. unfold answers. rewrite produced_app. apply filter_app. Qed.
Lemma mhist_lift o : manager_history (map XMgr o) = o.
Proof. induction o as [|x o IH]; [reflexivity|]. cbn. f_equal. exact IH. Qed.
Lemma outstanding_snoc h x : outstanding (h ++ [x]) = outstanding_step (outstanding h) x.
Proof. unfold outstanding. now rewrite fold_left_app. Qed.
Lemma waiting_snoc h x : waiting (h ++ [x]) = waiting_step (waiting h) x.
Proof. unfold waiting. now rewrite fold_left_app. Qed.
Lemma lping_snoc t0 h x :
  last_ping t0 (h ++ [x]) = match x with XQueue t m => if cm_type m =? 1 then t else last_ping t0 h | _ => last_ping t0 h end.
Proof. unfold last_ping. now rewrite fold_left_app. Qed.

Lemma outstanding_mgr h o : outstanding (h ++ map XMgr o) = outstanding h.
Proof.
  induction o as [|x o IH] using rev_ind; cbn [map]; [now rewrite app_nil_r|].
  rewrite map_app, app_assoc. cbn [map]. rewrite outstanding_snoc. exact IH.
Qed.
Lemma waiting_mgr h o : waiting (h ++ map XMgr o) = waiting h.
Proof.
  induction o as [|x o IH] using rev_ind; cbn [map]; [now rewrite app_nil_r|].
  rewrite map_app, app_assoc. cbn [map]. rewrite waiting_snoc, IH. cbn [waiting_step]. destruct (waiting h); reflexivity.
Qed.
Lemma lping_mgr t0 h o : last_ping t0 (h ++ map XMgr o) = last_ping t0 h.
Proof.
  induction o as [|x o IH] using rev_ind; cbn [map]; [now rewrite app_nil_r|].
  rewrite map_app, app_assoc. cbn [map]. rewrite lping_snoc. exact IH.
Qed.
Lemma received_mgr h o : received (h ++ map XMgr o) = received h.
Proof.
  rewrite received_app. replace (received (map XMgr o)) with (@nil (env * amsg)); [apply app_nil_r|].
  symmetry. induction o as [|x o IH]; [reflexivity|exact IH].
Qed.
Lemma sent_mgr h o : sent (h ++ map XMgr o) = sent h.
Proof.
  rewrite sent_app. replace (sent (map XMgr o)) with (@nil amsg); [apply app_nil_r|].
  symmetry. induction o as [|x o IH]; [reflexivity|exact IH].
Qed.
Lemma answers_mgr h o : answers (h ++ map XMgr o) = answers h.
Proof.
  rewrite answers_app. replace (answers (map XMgr o)) with (@nil cmsg); [apply app_nil_r|].
  symmetry. induction o as [|x o IH]; [reflexivity|exact IH].
Qed.

Lemma registered_ext h h' : received h' = received h -> registered h' = registered h.
Proof. intros E. unfold registered. now rewrite E. Qed.
Lemma registered_keep h o : received h <> [] -> registered (h ++ o) = registered h.
Proof.
  intros H. unfold registered. rewrite received_app. destruct (received h) as [|[e m] l]; [congruence|reflexivity].
Qed.
Lemma registered_mono h o : registered h = true -> registered (h ++ o) = true.
Proof.
  intros H. rewrite registered_keep; [exact H|]. intros E. unfold registered in H. rewrite E in H. discriminate.
Qed.

Lemma lcheck_gen lc : forall h pre x,
  last_check_from lc pre (h ++ [x]) =
  match x with
  | XTick t _ _ _ => if registered (pre ++ h) && (5 * SEC <=? t - last_check_from lc pre h)%Z then t else last_check_from lc pre h
  | _ => last_check_from lc pre h
  end.
Proof.
  intros h. revert lc. induction h as [|y h IH]; intros lc pre x.
  - cbn [last_check_from app]. rewrite app_nil_r. destruct x; reflexivity.
  - rewrite <- app_comm_cons. cbn [last_check_from]. rewrite IH, <- app_assoc. reflexivity.
Qed.
Lemma lcheck_snoc t0 h x :
  last_check t0 (h ++ [x]) =
  match x with
  | XTick t _ _ _ => if registered h && (5 * SEC <=? t - last_check t0 h)%Z then t else last_check t0 h
  | _ => last_check t0 h
  end.
Proof. unfold last_check. rewrite lcheck_gen. reflexivity. Qed.

Definition is_tick (x : cobs) : bool := match x with XTick _ _ _ _ => true | _ => false end.
Lemma lcheck_app t0 h o : existsb is_tick o = false -> last_check t0 (h ++ o) = last_check t0 h.
Proof.
  induction o as [|x o IH] using rev_ind; intros H; [now rewrite app_nil_r|].
  rewrite existsb_app in H. apply orb_false_iff in H as [H1 H2]. rewrite app_assoc, lcheck_snoc.
  destruct x; try (apply IH; exact H1). discriminate.
Qed.
Lemma tick_mgr o : existsb is_tick (map XMgr o) = false.
Proof. induction o; [reflexivity|exact IHo]. Qed.

Lemma asked_gen : forall h pre x,
  asked_from pre (h ++ [x]) =
  asked_from pre h ++
  match x with
  | XRecv e m => match read_request m with
                 | Some r => if registered (pre ++ h) then [(pre ++ h, e, r)] else []
                 | None => []
                 end
  | _ => []
  end.
Proof.
  induction h as [|y h IH]; intros pre x.
  - cbn [app asked_from]. rewrite !app_nil_r. reflexivity.
  - rewrite <- app_comm_cons. cbn [asked_from]. rewrite IH, app_assoc. rewrite <- (app_assoc pre [y] h). reflexivity.
Qed.
Lemma asked_snoc h x :
  asked (h ++ [x]) =
  asked h ++ match x with
             | XRecv e m => match read_request m with
                            | Some r => if registered h then [(h, e, r)] else []
                            | None => []
                            end
             | _ => []
             end.
Proof. unfold asked. now rewrite asked_gen. Qed.
Definition is_recv (x : cobs) : bool := match x with XRecv _ _ => true | _ => false end.
Lemma asked_app h o : existsb is_recv o = false -> asked (h ++ o) = asked h.
Proof.
  induction o as [|x o IH] using rev_ind; intros H; [now rewrite app_nil_r|].
  rewrite existsb_app in H. apply orb_false_iff in H as [H1 H2]. rewrite app_assoc, asked_snoc, (IH H1).
  destruct x; try apply app_nil_r. discriminate.
Qed.
Lemma recv_mgr o : existsb is_recv (map XMgr o) = false.
Proof. induction o; [reflexivity|exact IHo]. Qed.

(** ** The sessions of a manager are distinct *)
Definition keys_ok (g : mgr) : Prop := NoDup (map fst (g_sessions g)).
Lemma ainsert_keys {V} k (v : V) l x : In x (map fst (ainsert k v l)) -> x = k \/ In x (map fst l).
Proof.
  induction l as [|[a b] l IH]; cbn [ainsert map fst In]; [intuition congruence|].
  destruct (N.eqb_spec k a) as [->|]; cbn [map fst In]; [intuition congruence|]. intuition.
Qed.
Lemma ainsert_nodup {V} k (v : V) l : NoDup (map fst l) -> NoDup (map fst (ainsert k v l)).
Proof.
  induction l as [|[a b] l IH]; cbn [ainsert map fst]; intros H; [constructor; [easy|constructor]|].
  apply NoDup_cons_iff in H as [H1 H2]. destruct (N.eqb_spec k a) as [->|E]; cbn [map fst].
  - now constructor.
  - constructor; [|now apply IH]. intros Hi. apply ainsert_keys in Hi as [->|Hi]; [congruence|auto].
Qed.
Lemma aremove_nodup {V} k (l : list (N * V)) : NoDup (map fst l) -> NoDup (map fst (aremove k l)).
Proof.
  unfold aremove. induction l as [|[a b] l IH]; cbn [filter map fst]; intros H; [constructor|].
  apply NoDup_cons_iff in H as [H1 H2]. destruct (negb _); [|now apply IH]. cbn [map fst]. constructor; [|now apply IH].
  intros Hi. apply H1. apply in_map_iff in Hi as ([x y] & E & Hi). apply filter_In in Hi as [Hi _].
  apply in_map_iff. exists (x, y). auto.
Qed.
Lemma alookup_keys {V} k (l : list (N * V)) : alookup k l <> None <-> In k (map fst l).
Proof.
  induction l as [|[a b] l IH]; cbn [alookup map fst In]; [intuition congruence|].
  destruct (N.eqb_spec k a) as [->|E]; [intuition congruence|]. rewrite IH. intuition congruence.
Qed.

Lemma poll_loop_keys n : forall g, keys_ok g -> keys_ok (snd (fst (poll_loop n g))).
Proof.
  induction n as [|n IH]; intros g H; [exact H|]. cbn [poll_loop].
  destruct (g_order g) as [|sid rest]; [now apply IH|]. cbv zeta. set (g0 := set_order g rest).
  destruct (find_sess g0 sid) as [s|]; [|now apply IH].
  destruct (sess_take (g_factory g0) s) as [[[tk s'] f'] o]. destruct tk.
  - apply ainsert_nodup. exact H.
  - apply aremove_nodup. exact H.
  - apply aremove_nodup. exact H.
  - pose proof (IH (set_order (set_sess (set_factory g0 f') sid s') (g_order (set_factory g0 f') ++ [sid]))) as IH'.
    destruct (poll_loop n _) as [[r g3] os]. apply IH'. apply ainsert_nodup. exact H.
Qed.
Lemma wake_keys g : keys_ok g -> keys_ok (wake_task g).
Proof. unfold wake_task. destruct (g_task g); auto. Qed.

Lemma mgr_step_keys g e : keys_ok g -> keys_ok (fst (mgr_step g e)).
Proof.
  intros H. destruct e as [get svc sid|m|sid|sid len| |sid t|ids]; cbn [mgr_step].
  - unfold mgr_connect. destruct (connect_inner g get svc sid) as [[[t mac] a]|].
    + cbn [fst]. unfold keys_ok. gsimp. apply ainsert_nodup. apply (wake_keys (set_order g (g_order g ++ [sid]))). exact H.
    + unfold create_hup. cbn [next_id fst]. apply wake_keys. exact H.
  - unfold mgr_send. cbv zeta. destruct (find_sess g (m_session m)) as [s|].
    + destruct (sess_step s (EPush (m_payload m))) as [s' o]. apply ainsert_nodup. exact H.
    + unfold create_hup. cbn [next_id fst]. apply wake_keys. exact H.
  - unfold mgr_close. destruct (find_sess g sid) as [s|]; [|exact H]. destruct (sess_step s EClose). now apply aremove_nodup.
  - unfold mgr_data_ack. destruct (find_sess g sid) as [s|]; [|exact H].
    destruct (sess_step s (EDataAck len)). now apply ainsert_nodup.
  - unfold mgr_poll. destruct (g_queue g); [|exact H]. pose proof (poll_loop_keys (length (g_order g)) g H) as K.
    destruct (poll_loop (length (g_order g)) g) as [[r g1] o]. destruct r; exact K.
  - destruct (find_sess g sid) as [s|]; [|exact H]. destruct (sess_step s (sev_of t)). now apply ainsert_nodup.
  - exact H.
Qed.
Lemma mgr_run_keys W gw f es : keys_ok (fst (mgr_run (mgr_new W gw f) es)).
Proof.
  induction es as [|e es IH] using rev_ind; [constructor|]. rewrite mgr_run_snoc.
  destruct (mgr_run (mgr_new W gw f) es) as [g1 h1]. pose proof (mgr_step_keys g1 e IH) as H.
  destruct (mgr_step g1 e) as [g2 h2]. exact H.
Qed.
Lemma run_alive W gw f mes g mh :
  mgr_run (mgr_new W gw f) mes = (g, mh) ->
  exists l, NoDup l /\ N.of_nat (length l) = nlen (g_sessions g) /\ forall sid, In sid l <-> life sid mh = Some true.
Proof.
  intros H. exists (map fst (g_sessions g)). pose proof (mgr_run_keys W gw f mes) as K. pose proof (mgr_run_inv W gw f mes) as I.
  rewrite H in K, I. destruct I as [[A _] _ _ _]. split; [exact K|]. split; [now rewrite map_length|].
  intros sid. rewrite A. unfold is_live, find_sess. rewrite <- alookup_keys. destruct (alookup sid (g_sessions g)); split; congruence.
Qed.

(** ** The invariant *)

(** The first message received decides about the registration. *)
Definition first_ok (h : list cobs) : Prop :=
  match received h with
  | [] => True
  | (e, _) :: _ => registered h = true /\ e_diagnostic e = false
  end.
Lemma first_ok_none h : first_ok h -> registered h = false -> received h = [].
Proof. unfold first_ok. destruct (received h) as [|[e m] l]; [reflexivity|]. intros [H _]. congruence. Qed.
Lemma first_ok_keep h o : first_ok h -> registered h = true -> first_ok (h ++ o).
Proof.
  intros H R. unfold first_ok. rewrite (registered_mono h o R), received_app. unfold first_ok in H.
  destruct (received h) as [|[e m] l] eqn:E; [unfold registered in R; rewrite E in R; discriminate|split; [reflexivity|apply H]].
Qed.
Lemma first_ok_ext h h' : received h' = received h -> first_ok h -> first_ok h'.
Proof. intros E. unfold first_ok. rewrite (registered_ext h h' E), E. auto. Qed.

Definition fresh_mgr (g : mgr) : Prop := g_sessions g = [] /\ g_queue g = [] /\ g_order g = [].

Record inv (t0 : Z) (i : identity) (v1 : view) (c : ctx) (h : list cobs) : Prop := {
  v_acks : c_acks c = outstanding h;
  v_wait : waiting h = Some (c_messages c);
  v_est : c_established c = registered h;
  v_recv : first_ok h;
  v_mgr : exists mes, mgr_run (mgr_new SESSION_WINDOW_SIZE (id_gateway i) 0) mes = (c_mgr c, manager_history h);
  v_lp : c_last_ping c = last_ping t0 h;
  v_open : c_closed c = false /\ c_redirect c = None;
  v_first : exists rest, h = XQueue t0 (reg_msg i v1) :: rest /\
    (registered h = false ->
       Forall (before_registration (reg_msg i v1)) rest /\ c_acks c = [(t0, REGISTER_ID)] /\ fresh_mgr (c_mgr c) /\
       (sent h = [] /\ c_messages c = [amsg_of_cmsg (reg_msg i v1)] \/
        sent h = [amsg_of_cmsg (reg_msg i v1)] /\ c_messages c = []));
  v_run : c_run c = true \/ (c_task c = true /\ c_messages c = [])
}.

Definition answered (h : list cobs) : Prop := Forall2 answer (asked h) (answers h).

Definition run_ok (t0 : Z) (i : identity) (v1 : view) (c : ctx) (h : list cobs) : Prop :=
  inv t0 i v1 c h /\ c_last_check c = last_check t0 h /\ answered h.

Lemma first_ext i v1 t0 (h : list cobs) o (P : Prop) :
  (exists rest, h = XQueue t0 (reg_msg i v1) :: rest /\ P) ->
  registered (h ++ o) = true -> forall Q : list cobs -> Prop,
  exists rest, h ++ o = XQueue t0 (reg_msg i v1) :: rest /\ (registered (h ++ o) = false -> Q rest).
Proof. intros (rest & -> & _) H Q. exists (rest ++ o). split; [reflexivity|]. rewrite H. discriminate. Qed.

Section Inv.
  Variables (t0 : Z) (i : identity) (v1 : view).
  Notation inv := (inv t0 i v1).

  Lemma first_keep (h : list cobs) o (P Q : list cobs -> Prop) :
    (exists rest, h = XQueue t0 (reg_msg i v1) :: rest /\ P rest) ->
    registered (h ++ o) = true ->
    exists rest, h ++ o = XQueue t0 (reg_msg i v1) :: rest /\ (registered (h ++ o) = false -> Q rest).
  Proof. intros (rest & -> & _) H. exists (rest ++ o). split; [reflexivity|]. rewrite H. discriminate. Qed.

  Lemma inv_mgr c h me g o :
    inv c h -> registered h = true -> mgr_step (c_mgr c) me = (g, o) -> inv (set_mgr c g) (h ++ map XMgr o).
  Proof.
    intros [A B C D E F G H I] R S.
    assert (R' : registered (h ++ map XMgr o) = true) by now apply registered_mono.
    split; csimp; auto.
    - now rewrite outstanding_mgr.
    - now rewrite waiting_mgr.
    - congruence.
    - now apply first_ok_keep.
    - destruct E as [mes E]. exists (mes ++ [me]). rewrite mgr_run_snoc, E, S, mhist_app, mhist_lift. reflexivity.
    - now rewrite lping_mgr.
    - eapply first_keep; [exact H|exact R'].
  Qed.

  (** Taking a message ID. *)
  Lemma inv_next_id c h n c1 : inv c h -> c_next_id c = (n, c1) -> inv c1 h.
  Proof.
    intros [A B C D E F G H I]. unfold c_next_id. cbn [next_id]. intros [= <- <-]. split; csimp; auto.
    - destruct E as [mes E]. exists (mes ++ [MIds ((g_factory (c_mgr c) + 1) mod 2 ^ 64)]).
      rewrite mgr_run_snoc, E. cbn [mgr_step]. now rewrite app_nil_r.
  Qed.

  Lemma inv_queue c h t m c1 :
    inv c h -> registered h = true ->
    c1 = (let a := if needs_ack m then set_acks c (c_acks c ++ [(t, cm_id m)]) else c in
          if cm_type m =? 1 then set_last_ping a t else a) ->
    inv (fst (send_control t c1 m)) (h ++ [XQueue t m]).
  Proof.
    intros [A B C D E F G H I] R Hc1. cbv zeta in Hc1.
    assert (R' : registered (h ++ [XQueue t m]) = true) by now apply registered_mono.
    assert (X : c_mgr c1 = c_mgr c /\ c_messages c1 = c_messages c /\ c_established c1 = c_established c /\
                c_closed c1 = c_closed c /\ c_redirect c1 = c_redirect c /\ c_task c1 = c_task c /\ c_run c1 = c_run c /\
                c_acks c1 = (if needs_ack m then c_acks c ++ [(t, cm_id m)] else c_acks c) /\
                c_last_ping c1 = (if cm_type m =? 1 then t else c_last_ping c)).
    { subst c1. destruct (needs_ack m), (cm_type m =? 1); repeat split; reflexivity. }
    clear Hc1. destruct X as (X1 & X2 & X3 & X4 & X5 & X6 & X7 & X8 & X9).
    assert (Y : let c2 := fst (send_control t c1 m) in
                c_mgr c2 = c_mgr c /\ c_messages c2 = c_messages c ++ [amsg_of_cmsg m] /\ c_established c2 = c_established c /\
                c_closed c2 = c_closed c /\ c_redirect c2 = c_redirect c /\ c_acks c2 = c_acks c1 /\
                c_last_ping c2 = c_last_ping c1 /\ (c_run c = true \/ c_task c = true -> c_run c2 = true)).
    { cbv zeta. unfold send_control. cbn [fst]. csimp. rewrite X6. destruct (c_task c) eqn:Et; csimp; rewrite ?X2; repeat split; auto.
      intros [Y|Y]; [congruence|discriminate]. }
    cbv zeta in Y. destruct Y as (Y1 & Y2 & Y3 & Y4 & Y5 & Y6 & Y7 & Y8). split.
    - rewrite Y6, X8, outstanding_snoc, A. cbn [outstanding_step]. destruct (needs_ack m); reflexivity.
    - rewrite waiting_snoc, B, Y2. reflexivity.
    - congruence.
    - now apply first_ok_keep.
    - rewrite Y1, mhist_app. cbn. rewrite app_nil_r. exact E.
    - rewrite Y7, X9, lping_snoc. destruct (cm_type m =? 1); auto.
    - rewrite Y4, Y5. exact G.
    - eapply first_keep; [exact H|exact R'].
    - left. apply Y8. destruct I as [I|[I _]]; auto.
  Qed.

  Lemma inv_recv c h e m : inv c h -> registered h = true -> read_ack m = None -> inv c (h ++ [XRecv e m]).
  Proof.
    intros [A B C D E F G H I] R Hm.
    assert (R' : registered (h ++ [XRecv e m]) = true) by now apply registered_mono.
    split; auto.
    - rewrite outstanding_snoc. cbn [outstanding_step]. now rewrite Hm.
    - now rewrite waiting_snoc, B.
    - congruence.
    - now apply first_ok_keep.
    - rewrite mhist_app. cbn. rewrite app_nil_r. exact E.
    - rewrite lping_snoc. exact F.
    - eapply first_keep; [exact H|exact R'].
  Qed.

  Lemma inv_ack c h e m id code rest x :
    inv c h -> registered h = true -> read_ack m = Some (id, code) -> c_acks c = x :: rest ->
    inv (set_acks c rest) (h ++ [XRecv e m]).
  Proof.
    intros [A B C D E F G H I] R Hm Ha.
    assert (R' : registered (h ++ [XRecv e m]) = true) by now apply registered_mono.
    split; csimp; auto.
    - rewrite outstanding_snoc. cbn [outstanding_step]. rewrite Hm, <- A, Ha. reflexivity.
    - now rewrite waiting_snoc, B.
    - congruence.
    - now apply first_ok_keep.
    - rewrite mhist_app. cbn. rewrite app_nil_r. exact E.
    - rewrite lping_snoc. exact F.
    - eapply first_keep; [exact H|exact R'].
  Qed.

  (** The positive answer to REGISTER. *)
  Lemma inv_register c h e m :
    inv c h -> registered h = false -> read_ack m = Some (REGISTER_ID, 0) -> e_diagnostic e = false ->
    inv (set_established (set_acks c [])) (h ++ [XRecv e m]) /\ registered (h ++ [XRecv e m]) = true.
  Proof.
    intros [A B C D E F G H I] R Hm Hdg.
    assert (R' : registered (h ++ [XRecv e m]) = true).
    { unfold registered. rewrite received_app, (first_ok_none h D R). cbn [received flat_map app]. rewrite Hm. reflexivity. }
    split; [|exact R'].
    split; csimp; auto.
    - rewrite outstanding_snoc. cbn [outstanding_step]. rewrite Hm, <- A. destruct H as (rest & _ & H).
      destruct (H R) as (_ & -> & _). reflexivity.
    - now rewrite waiting_snoc, B.
    - unfold first_ok. rewrite R', received_app, (first_ok_none h D R). cbn. auto.
    - rewrite mhist_app. cbn. rewrite app_nil_r. exact E.
    - rewrite lping_snoc. exact F.
    - eapply first_keep; [exact H|exact R'].
  Qed.

  (** Sending. *)
  Lemma inv_sent c h m q :
    inv c h -> c_messages c = m :: q -> inv (set_ctask (set_messages c q) (c_task c) true) (h ++ [XSent m]).
  Proof.
    intros [A B C D E F G H I] Hq.
    assert (R' : registered (h ++ [XSent m]) = registered h).
    { apply registered_ext. rewrite received_app. apply app_nil_r. }
    split; csimp; auto.
    - now rewrite outstanding_snoc.
    - rewrite waiting_snoc, B, Hq. cbn [waiting_step]. rewrite !N.eqb_refl. rewrite beq_refl. reflexivity.
    - congruence.
    - eapply first_ok_ext; [|exact D]. rewrite received_app. apply app_nil_r.
    - rewrite mhist_app. cbn. rewrite app_nil_r. exact E.
    - rewrite lping_snoc. exact F.
    - destruct H as (rest & H1 & H2). exists (rest ++ [XSent m]). split; [now rewrite H1|]. rewrite R'.
      intros R. destruct (H2 R) as (P1 & P2 & P3 & P4). destruct P4 as [[P4 P5]|[P4 P5]]; [|congruence].
      assert (m = amsg_of_cmsg (reg_msg i v1) /\ q = []) as [-> ->] by (split; congruence).
      split; [apply Forall_app; split; [exact P1|]; constructor; [reflexivity|constructor]|].
      split; [exact P2|]. split; [exact P3|]. right. rewrite sent_app, P4. auto.
  Qed.

  Lemma fresh_poll g : fresh_mgr g -> exists g', mgr_poll g = (g', []) /\ fresh_mgr g'.
  Proof.
    intros (A & B & C). unfold mgr_poll. rewrite B, C. cbn [length poll_loop]. eexists. split; [reflexivity|].
    split; [exact A|]. split; [exact B|exact C].
  Qed.

  Lemma inv_task c h t r : inv c h -> (r = true \/ (t = true /\ c_messages c = [])) -> inv (set_ctask c t r) h.
  Proof. intros [A B C D E F G H I] Hr. split; csimp; auto. Qed.

  (** Polling the session manager. *)
  Lemma inv_poll c h g o : inv c h -> c_messages c = [] -> mgr_poll (c_mgr c) = (g, o) -> inv (set_mgr c g) (h ++ map XMgr o).
  Proof.
    intros Hi Hq Hp. destruct (registered h) eqn:R; [eapply (inv_mgr c h MPoll); eauto|].
    destruct Hi as [A B C D E F G H I]. destruct H as (rest & H1 & H2). destruct (H2 R) as (P1 & P2 & P3 & P4).
    destruct (fresh_poll _ P3) as (g' & Hp' & P3'). assert (g = g' /\ o = []) as [-> ->] by (split; congruence).
    cbn [map]. rewrite app_nil_r. split; csimp; auto.
    - destruct E as [mes E]. exists (mes ++ [MPoll]). rewrite mgr_run_snoc, E. cbn [mgr_step]. rewrite Hp'. now rewrite app_nil_r.
    - exists rest. split; [exact H1|]. intros _. auto.
  Qed.

  Lemma polled_in o m : polled_msg o = Some m -> exists w, In (OMsg w m) o.
  Proof.
    induction o as [|x o IH]; cbn [polled_msg]; [discriminate|].
    destruct x; try (intros H; destruct (IH H) as [w Hw]; exists w; right; exact Hw).
    intros [= <-]. exists from. now left.
  Qed.

  Lemma inv_sent_mgr c h m : inv c h -> registered h = true -> c_messages c = [] -> inv c (h ++ [XSent m]).
  Proof.
    intros [A B C D E F G H I] R Hq.
    assert (R' : registered (h ++ [XSent m]) = true) by now apply registered_mono.
    split; csimp; auto.
    - now rewrite outstanding_snoc.
    - rewrite waiting_snoc, B, Hq. reflexivity.
    - congruence.
    - now apply first_ok_keep.
    - rewrite mhist_app. cbn. rewrite app_nil_r. exact E.
    - rewrite lping_snoc. exact F.
    - eapply first_keep; [exact H|exact R'].
  Qed.

  (** A step of a session's transport. *)
  Lemma inv_transport c h sid te g o :
    inv c h -> mgr_step (c_mgr c) (MTransport sid te) = (g, o) -> inv (set_mgr c g) (h ++ map XMgr o).
  Proof.
    intros Hi Hp. destruct (registered h) eqn:R; [eapply (inv_mgr c h (MTransport sid te)); eauto|].
    destruct Hi as [A B C D E F G H I]. destruct H as (rest & H1 & H2). destruct (H2 R) as (P1 & P2 & P3 & P4).
    assert (Hn : find_sess (c_mgr c) sid = None) by (unfold find_sess; destruct P3 as [-> _]; reflexivity).
    cbn [mgr_step] in Hp. rewrite Hn in Hp. assert (g = c_mgr c /\ o = []) as [-> ->] by (split; congruence).
    cbn [map]. rewrite app_nil_r. split; csimp; auto. exists rest. split; [exact H1|]. intros _. auto.
  Qed.

  (** The beginning of a tick. *)
  Lemma inv_tick c h t a b d : inv c h -> inv c (h ++ [XTick t a b d]).
  Proof.
    intros [A B C D E F G H I].
    assert (R' : registered (h ++ [XTick t a b d]) = registered h).
    { apply registered_ext. rewrite received_app. apply app_nil_r. }
    split; auto.
    - now rewrite outstanding_snoc.
    - now rewrite waiting_snoc, B.
    - congruence.
    - eapply first_ok_ext; [|exact D]. rewrite received_app. apply app_nil_r.
    - rewrite mhist_app. cbn. rewrite app_nil_r. exact E.
    - rewrite lping_snoc. exact F.
    - destruct H as (rest & H1 & H2). exists (rest ++ [XTick t a b d]). split; [now rewrite H1|]. rewrite R'.
      intros R. destruct (H2 R) as (P1 & P2 & P3 & P4).
      split; [apply Forall_app; split; [exact P1|]; constructor; [exact Logic.I|constructor]|].
      rewrite sent_app, app_nil_r. auto.
  Qed.

  Lemma inv_new v2 : inv (fst (ctx_new t0 i v1 v2)) (snd (ctx_new t0 i v1 v2)).
  Proof.
    split.
    - reflexivity.
    - reflexivity.
    - reflexivity.
    - reflexivity.
    - exists [MIds 1]. reflexivity.
    - reflexivity.
    - split; reflexivity.
    - exists []. split; [destruct (id_gateway i) eqn:E; unfold reg_msg; cbn; rewrite E; reflexivity|]. intros _. split; [constructor|].
      split; [reflexivity|]. split; [repeat split|]. left. split; [reflexivity|].
      unfold reg_msg, ctx_new. cbn. destruct (id_gateway i); reflexivity.
    - left. reflexivity.
  Qed.
End Inv.
