(** Why a connection ends. *)
From Coq Require Import NArith ZArith List Bool Lia ZifyBool ZifyNat ZifyN.
From Verif.Model Require Import Bytes Frame Service Control Alist Session Manager Client MainTask.
From Verif.Spec Require Import ControlSpec SessionSpec ManagerSpec ClientSpec EndSpec.
From Verif.Proofs Require Import BytesFacts ControlProofs AlistFacts ManagerProofs ManagerPropsPf ManagerPropsPf2
  ClientProofs ClientInv ClientRun ClientPropsPf ClientPropsPf2.
Import ListNotations.
Local Open Scope N_scope.

Section End.
  Variables (t0 : Z) (i : identity) (v1 v2 : view).
  Notation full := (full t0 i v1 v2).
  Notation cause := (cause).

  (** The end is seen in the history, or the stream failed. *)
  Definition blamed (items : list sitem) (o : list cobs) (r : cresult) : Prop :=
    (exists en m o', o = XRecv en m :: o') \/ (In SFail items /\ r = Failed OtherError) \/ (In SEnd items /\ r = Failed ConnectionError).

  Lemma feed_blame c h it r c' o :
    full c h -> feed_item c it = (r, c', o) ->
    (r = None /\ is_closed c' = false /\ full c' (h ++ o)) \/
    (exists k, r = Some k /\ cause c o (Failed k) /\ blamed [it] o (Failed k)) \/
    (r = None /\ is_closed c' = true /\ cause c o (final_result c') /\ blamed [it] o (final_result c')).
  Proof.
    intros R H. pose proof (feed_outcome _ _ _ _ _ _ _ _ _ _ R H) as X.
    destruct X as [X|[(k & X1 & X2)|(X1 & X2 & X3)]]; [now left|right; left|right; right].
    - exists k. split; [exact X1|]. split; [exact X2|]. destruct it as [t e m| |]; cbn [feed_item] in H.
      + left. apply process_handled in H; [|apply open_not_closed, (v_open _ _ _ _ _ (proj1 (proj1 R)))].
        destruct H as (o' & -> & _). eauto.
      + right. left. split; [now left|]. congruence.
      + congruence.
    - split; [exact X1|]. split; [exact X2|]. split; [exact X3|]. destruct it as [t e m| |]; cbn [feed_item] in H.
      + left. apply process_handled in H; [|apply open_not_closed, (v_open _ _ _ _ _ (proj1 (proj1 R)))].
        destruct H as (o' & -> & _). eauto.
      + congruence.
      + right. right. split; [now left|]. injection H as <- <- <-. unfold final_result. csimp.
        destruct (v_open _ _ _ _ _ (proj1 (proj1 R))) as [_ ->]. reflexivity.
  Qed.
  Lemma blamed_more items items' o r : incl items items' -> blamed items o r -> blamed items' o r.
  Proof. unfold blamed. intros H [A|[[A B]|[A B]]]; auto. Qed.

  Definition ended (items : list sitem) (h : list cobs) (c' : ctx) (o : list cobs) (p : polled) : Prop :=
    match p with
    | PPending | PReady _ => True
    | PError k => exists c0 o0 o1, o = o0 ++ o1 /\ full c0 (h ++ o0) /\ cause c0 o1 (Failed k) /\ blamed items o1 (Failed k)
    | PEnd => exists c0 o0 o1, o = o0 ++ o1 /\ full c0 (h ++ o0) /\ cause c0 o1 (final_result c') /\ blamed items o1 (final_result c')
    end.
  Lemma ended_more items items' h c' a o p : incl items items' -> ended items (h ++ a) c' o p -> ended items' h c' (a ++ o) p.
  Proof.
    intros H. destruct p; cbn [ended]; auto; intros (c0 & o0 & o1 & -> & A & B & C); exists c0, (a ++ o0), o1;
      rewrite <- app_assoc in *; eauto using blamed_more.
  Qed.

  Lemma loop_blame items : forall c h p c' o,
    full c h -> client_loop c items = (p, c', o) -> ended items h c' o p.
  Proof.
    induction items as [|it items IH]; intros c h p c' o R; cbn [client_loop];
      destruct (ctx_poll c) as [[p1 c1] o1] eqn:Ep; destruct (full_poll _ _ _ _ c h p1 c1 o1 R Ep) as [(-> & R1 & W1 & W2)|(m & -> & R1)].
    - intros [= <- <- <-]. exact Logic.I.
    - intros [= <- <- <-]. exact Logic.I.
    - destruct (feed_item c1 it) as [[r c2] o2] eqn:Ef.
      destruct (feed_blame c1 _ it r c2 o2 R1 Ef) as [(-> & B & C)|[(k & -> & C & D)|(-> & B & C & D)]].
      + rewrite <- app_assoc in C. destruct (client_loop c2 items) as [[p3 c3] o3] eqn:El. intros [= <- <- <-].
        specialize (IH c2 _ _ _ _ C El). rewrite (app_assoc o1 o2 o3). eapply ended_more; [|exact IH]. intros x. now right.
      + intros [= <- <- <-]. exists c1, o1, o2. split; [reflexivity|]. split; [exact R1|]. split; [exact C|]. eapply blamed_more; [|exact D]. intros x [->|[]]. now left.
      + rewrite (ended_loop c2 items B). intros [= <- <- <-]. rewrite app_nil_r. exists c1, o1, o2. split; [reflexivity|]. split; [exact R1|]. split; [exact C|].
        eapply blamed_more; [|exact D]. intros x [->|[]]. now left.
    - intros [= <- <- <-]. exact Logic.I.
  Qed.
  Lemma poll_blame items c h p c' o :
    full c h -> client_poll c items = (p, c', o) -> ended items h c' o p.
  Proof.
    intros R. destruct items as [|it items]; cbn [client_poll]; [apply loop_blame; exact R|].
    destruct (feed_item c it) as [[r c2] o2] eqn:Ef.
    destruct (feed_blame c _ it r c2 o2 R Ef) as [(-> & B & C)|[(k & -> & C & D)|(-> & B & C & D)]].
    - destruct (client_loop c2 items) as [[p3 c3] o3] eqn:El. intros [= <- <- <-].
      pose proof (loop_blame items c2 _ _ _ _ C El) as X. eapply ended_more; [|exact X]. intros x. now right.
    - intros [= <- <- <-]. exists c, [], o2. rewrite app_nil_r. split; [reflexivity|]. split; [exact R|]. split; [exact C|].
      eapply blamed_more; [|exact D]. intros x [->|[]]. now left.
    - rewrite (ended_loop c2 items B). intros [= <- <- <-]. exists c, [], o2. rewrite !app_nil_r. split; [reflexivity|]. split; [exact R|]. split; [exact C|].
      eapply blamed_more; [|exact D]. intros x [->|[]]. now left.
  Qed.

  Lemma cause_reason e c h o r : full c h -> cause c o r -> (exists en m o', o = XRecv en m :: o') -> bytes_received (h ++ o) -> ends_for e (h ++ o) r.
  Proof.
    intros ((I & L & A) & X & Y) Hc Ho Hb. inversion Hc as [t en m kd c' Hd Hk|t en m c' tg Hd Ht|kd Hk|t a b d c' o' Ht]; subst.
    - destruct (handled_some _ _ _ _ _ _ _ _ _ _ I Hd) as [[-> [[Ha [R|[Hs Hm]]]|(id & code & Ha & Hn)]]|(R & code & Ha & Hn & ->)].
      + assert (E : received h = []) by (apply first_ok_none; [exact (v_recv _ _ _ _ _ I)|exact R]).
        pose proof (Refused e (h ++ [XRecv en m]) h en m eq_refl E) as Z. rewrite Ha in Z. apply Z. discriminate.
      + destruct (registered h) eqn:R.
        * eapply Malformed; [reflexivity|exact R|exact Hs|]. intros cm S. apply accept_complete in S. congruence.
        * assert (E : received h = []) by (apply first_ok_none; [exact (v_recv _ _ _ _ _ I)|exact R]).
          pose proof (Refused e (h ++ [XRecv en m]) h en m eq_refl E) as Z. rewrite Ha in Z. apply Z. discriminate.
      + destruct (registered h) eqn:R; [eapply WrongAck; eauto|].
        assert (E : received h = []) by (apply first_ok_none; [exact (v_recv _ _ _ _ _ I)|exact R]).
        pose proof (Refused e (h ++ [XRecv en m]) h en m eq_refl E) as Z. rewrite Ha in Z.
        destruct (v_first _ _ _ _ _ I) as (rest' & _ & Hf). destruct (Hf R) as (_ & F & _).
        rewrite (v_acks _ _ _ _ _ I) in F. destruct (N.eqb_spec id REGISTER_ID) as [->|N0].
        * exfalso. exact (Hn _ _ F).
        * apply Z. congruence.
      + assert (E : received h = []) by (apply first_ok_none; [exact (v_recv _ _ _ _ _ I)|exact R]).
        pose proof (Refused e (h ++ [XRecv en m]) h en m eq_refl E) as Z. rewrite Ha, N.eqb_refl in Z. apply Z. congruence.
    - destruct (redirect_inv2 _ _ _ _ _ _ _ _ _ _ I Hd Ht) as [(R & Hs & id & Z)|(R & Z1 & Z2 & ->)].
      + eapply Elsewhere; [reflexivity|exact R|]. split; [exact Hs|]. apply accept_sound; [|exact Z].
        apply (Hb en). apply in_or_app. right. now left.
      + assert (E : received h = []) by (apply first_ok_none; [exact (v_recv _ _ _ _ _ I)|exact R]). eapply Diagnostic; eauto.
    - destruct Ho as (? & ? & ? & Ho). discriminate Ho.
    - destruct Ho as (? & ? & ? & Ho). discriminate Ho.
  Qed.

  Lemma tick_reason c h t a b d c' o :
    full c h -> time_event t c a b d = (Some ConnectionError, c', o) -> ends_for (KTick t a b d) (h ++ XTick t a b d :: o) (Failed ConnectionError).
  Proof.
    intros ((I & L & A) & _ & _) Ht.
    destruct (tick_shape _ _ _ _ _ _ _ _ _ _ _ _ (conj I (conj L A)) Ht) as ((I1 & _) & Hr & p & u & -> & Hp & Hu).
    assert (Hu' : if registered h && (5 * SEC <=? t - last_check t0 h)%Z && negb (c_version c =? v_version a)
                  then exists n, u = [XQueue t (mk_update n (table_of_services (v_visible b)))] else u = [])
      by (destruct (_ && negb _); apply Hu).
    destruct (tick_outstanding t0 h t a b d p u _ _ _ Hp Hu') as (new & Hn & Hnew & _ & _).
    unfold ack_timeout in Hr. rewrite (v_acks _ _ _ _ _ I1), Hn in Hr. change ACK_TIMEOUT with (20 * SEC)%Z in Hr.
    destruct (outstanding h) as [|[t1 id1] rest] eqn:Eo.
    - exfalso. cbn [app] in Hr. destruct (registered h && (60 * SEC <=? t - last_ping t0 h)%Z).
      + destruct Hnew as [n ->]. destruct (Z.leb_spec (20 * SEC) (t - t)); [unfold SEC in *; lia|discriminate].
      + subst new. discriminate.
    - cbn [app] in Hr. destruct (Z.leb_spec (20 * SEC) (t - t1)); [|discriminate].
      eapply Late; [reflexivity|reflexivity| |eassumption]. rewrite Eo. now left.
  Qed.

  Lemma step_reason k h e k' o r :
    full (k_ctx k) h -> k_result k = None -> conn_step k e = (k', o) -> bytes_received (h ++ o) -> k_result k' = Some r ->
    ends_for e (h ++ o) r.
  Proof.
    intros R Hk. unfold conn_step. rewrite Hk. destruct e as [items|t a b d| |sid te].
    - destruct (client_poll (k_ctx k) items) as [[p c1] o1] eqn:Ep. pose proof (poll_blame _ _ _ _ _ _ R Ep) as X.
      destruct p as [m|kd| |]; cbn [ended] in X; intros [= <- <-] Hb; cbn [k_result]; try discriminate; intros [= <-].
      + destruct X as (c0 & o0 & o2 & -> & A & B & [C|[[C D]|[C D]]]).
        * rewrite app_assoc in *. eapply cause_reason; eauto.
        * injection D as ->. eapply StreamFailed; eauto.
        * injection D as ->. eapply StreamEnded; eauto.
      + destruct X as (c0 & o0 & o2 & -> & A & B & [C|[[C D]|[C D]]]).
        * rewrite app_assoc in *. eapply cause_reason; eauto.
        * rewrite D. eapply StreamFailed; eauto.
        * rewrite D. eapply StreamEnded; eauto.
    - rewrite (open_not_closed _ (v_open _ _ _ _ _ (proj1 (proj1 R)))).
      destruct (time_event t (k_ctx k) a b d) as [[r0 c1] o1] eqn:Et. intros [= <- <-] Hb. cbn [k_result].
      destruct (tick_shape _ _ _ _ _ _ _ _ _ _ _ _ (proj1 R) Et) as (_ & Hr & _).
      destruct r0 as [kd|]; [|discriminate]. intros [= <-]. destruct (ack_timeout t c1); [|discriminate]. injection Hr as ->.
      eapply tick_reason; eauto.
    - intros [= <- <-] Hb [= <-]. now apply SinkFailed.
    - destruct (lift_mgr _ _). intros [= <- <-] Hb. discriminate.
  Qed.
End End.

Lemma run_split es : forall k r, k_result k = None -> k_result (fst (conn_run k es)) = Some r ->
  exists es1 e es2, es = es1 ++ e :: es2 /\ k_result (fst (conn_run k es1)) = None /\ k_result (fst (conn_run k (es1 ++ [e]))) = Some r /\
    snd (conn_run k (es1 ++ [e])) = snd (conn_run k es).
Proof.
  induction es as [|e es IH]; intros k r Hk; cbn [conn_run].
  - cbn [fst]. congruence.
  - destruct (conn_step k e) as [k1 o1] eqn:E1. destruct (conn_run k1 es) as [k2 o2] eqn:E2. cbn [fst]. intros Hr.
    destruct (k_result k1) as [r1|] eqn:R1.
    + assert (X : k_result k1 <> None) by congruence. rewrite (run_ended k1 es X) in E2. injection E2 as <- <-.
      exists [], e, es. cbn [app conn_run]. rewrite E1. cbn [fst snd]. repeat split; congruence.
    + specialize (IH k1 r R1). rewrite E2 in IH. destruct (IH Hr) as (es1 & e1 & es2 & -> & A & B & C).
      exists (e :: es1), e1, es2. cbn [app conn_run]. rewrite E1.
      destruct (conn_run k1 es1) as [k3 o3]. destruct (conn_run k1 (es1 ++ [e1])) as [k4 o4]. cbn [fst snd] in *. repeat split; congruence.
Qed.
Lemma run_app es : forall k es', conn_run k (es ++ es') =
  let '(k1, o1) := conn_run k es in let '(k2, o2) := conn_run k1 es' in (k2, o1 ++ o2).
Proof.
  induction es as [|e es IH]; intros k es'; cbn [app conn_run].
  - destruct (conn_run k es'); reflexivity.
  - destruct (conn_step k e) as [k1 o1]. rewrite IH. destruct (conn_run k1 es) as [k2 o2]. destruct (conn_run k2 es') as [k3 o3]. now rewrite app_assoc.
Qed.

Lemma end_reason t0 i v1 v2 es k h r :
  connection t0 i v1 v2 es = (k, h) -> bytes_received h -> k_result k = Some r ->
  exists es1 e es2 k1 h1, es = es1 ++ e :: es2 /\ connection t0 i v1 v2 es1 = (k1, h1) /\ k_result k1 = None /\ ends_for e h r.
Proof.
  intros H Hb Hr. unfold connection in H. destruct (conn_new t0 i v1 v2) as [k0 o0] eqn:E0.
  assert (R0 : k_result k0 = None) by (unfold conn_new in E0; destruct (ctx_new t0 i v1 v2); injection E0 as <- <-; reflexivity).
  destruct (conn_run k0 es) as [k' o'] eqn:E1. injection H as -> <-.
  pose proof (run_split es k0 r R0) as S. rewrite E1 in S. destruct (S Hr) as (es1 & e & es2 & -> & A & B & C). clear S.
  destruct (conn_run k0 es1) as [k1 o1] eqn:E2. exists es1, e, es2, k1, (o0 ++ o1).
  assert (H1 : connection t0 i v1 v2 es1 = (k1, o0 ++ o1)) by (unfold connection; rewrite E0, E2; reflexivity).
  split; [reflexivity|]. split; [exact H1|]. split; [exact A|].
  rewrite run_app, E2 in B, C. cbn [conn_run] in B, C. destruct (conn_step k1 e) as [k2 o2] eqn:E3. cbn [fst snd] in *. rewrite app_nil_r in C. subst o'.
  rewrite app_assoc in *. eapply step_reason; eauto. eapply running_full; eauto.
Qed.

Lemma good_server t0 i v1 v2 es k h :
  connection t0 i v1 v2 es = (k, h) -> bytes_received h -> Forall sound_event es -> polite h -> prompt h -> k_result k = None.
Proof.
  intros H Hb Hs Hp Ht. destruct (k_result k) as [r|] eqn:Er; [|reflexivity]. exfalso.
  destruct (end_reason _ _ _ _ _ _ _ _ H Hb Er) as (es1 & e & es2 & k1 & h1 & -> & _ & _ & Hr).
  apply Forall_app in Hs as [_ Hs]. inversion Hs as [|? ? He _]; subst. clear Hs.
  assert (Hreg : forall g, registered g = true -> received g <> []) by (intros g; unfold registered; destruct (received g); discriminate).
  destruct Hr as [t a b d g o t1 id E1 E2 E3 E4|g en m E1 E2 E3|g en m E1 E2 E3 E4|g en m id tg E1 E2 E3|g en m E1 E2 E3 E4|g en m id code E1 E2 E3 E4|items E1 E2|items E1 E2|E1].
  - specialize (Ht _ _ _ _ _ _ _ _ E2 E3). lia.
  - destruct (Hp _ _ _ _ E1) as [P _]. destruct (P E2) as [P1 _]. congruence.
  - destruct (Hp _ _ _ _ E1) as [P _]. destruct (P E2) as [_ P2]. congruence.
  - destruct (Hp _ _ _ _ E1) as [_ P]. destruct E3 as [S1 S2]. destruct (P (Hreg _ E2) S1) as (cm & Q1 & Q2 & _).
    apply accept_complete in Q1, S2. rewrite S2 in Q1. injection Q1 as <-. apply Q2. reflexivity.
  - destruct (Hp _ _ _ _ E1) as [_ P]. destruct (P (Hreg _ E2) E3) as (cm & Q1 & _). exact (E4 _ Q1).
  - destruct (Hp _ _ _ _ E1) as [_ P]. apply read_ack_decode in E3 as [S1 S2]. destruct (P (Hreg _ E2) S1) as (cm & Q1 & _ & Q3).
    apply accept_complete in Q1. rewrite S2 in Q1. injection Q1 as <-. destruct (Q3 eq_refl) as (t & rest & Q4). exact (E4 _ _ Q4).
  - subst e. destruct He as [He _]. auto.
  - subst e. destruct He as [_ He]. auto.
  - subst e. exact He.
Qed.

(** ** The main task *)
Lemma run_open k e es : k_result (fst (conn_run k (e :: es))) = None -> k_result (fst (conn_step k e)) = None.
Proof.
  cbn [conn_run]. destruct (conn_step k e) as [k1 o1]. destruct (k_result k1) eqn:E; [|cbn [fst]; congruence].
  rewrite run_ended by congruence. cbn [fst]. congruence.
Qed.
Lemma online_run es : forall m k, mt_phase m = POnline k -> k_result k = None ->
  k_result (fst (conn_run k (conn_events es))) = None ->
  mtask_run m es = (set_phase m (POnline (fst (conn_run k (conn_events es)))), map TConn (snd (conn_run k (conn_events es)))).
Proof.
  induction es as [|e es IH]; intros m k Hp Hk Hr.
  - cbn. destruct m; cbn in *. now subst.
  - destruct e as [x1 x2 x3|x1 x2 x3 x4|e now next|x1].
    all: try (cbn [mtask_run]; unfold mtask_step; rewrite Hp; rewrite (IH m k Hp Hk Hr); reflexivity).
    change (conn_events (EvConn e now next :: es)) with (e :: conn_events es) in *. pose proof (run_open _ _ _ Hr) as Hs.
    cbn [mtask_run]. unfold mtask_step. rewrite Hp. cbn [conn_run] in *. destruct (conn_step k e) as [k1 o1]. cbn [fst] in Hs. rewrite Hs.
    destruct (conn_run k1 (conn_events es)) as [k2 o2] eqn:E2. cbn [fst] in Hr.
    rewrite (IH (set_phase m (POnline k1)) k1 eq_refl Hs) by (rewrite E2; exact Hr). rewrite E2. cbn [fst snd]. rewrite map_app. reflexivity.
Qed.
Lemma stays_connected m t i v1 v2 es k h :
  mt_phase m = PTls -> connection t i v1 v2 (conn_events es) = (k, h) ->
  bytes_received h -> Forall sound_event (conn_events es) -> polite h -> prompt h ->
  mtask_run m (EvUp t i v1 v2 :: es) = (set_phase m (POnline k), map TConn h).
Proof.
  intros Hp H Hb Hs Ho Ht. pose proof (good_server _ _ _ _ _ _ _ H Hb Hs Ho Ht) as Hk.
  unfold connection in H. cbn [mtask_run]. unfold mtask_step at 1. rewrite Hp.
  destruct (conn_new t i v1 v2) as [k0 o0] eqn:E0.
  assert (R0 : k_result k0 = None) by (unfold conn_new in E0; destruct (ctx_new t i v1 v2); injection E0 as <- <-; reflexivity).
  destruct (conn_run k0 (conn_events es)) as [k1 o1] eqn:E1. injection H as -> <-.
  rewrite (online_run es (set_phase m (POnline k0)) k0 eq_refl R0) by (rewrite E1; exact Hk). rewrite E1. cbn [fst snd]. rewrite map_app. reflexivity.
Qed.

(** ** Bad messages do end the connection *)
Lemma malformed_ends t0 i v1 v2 es k h h1 en m h2 :
  connection t0 i v1 v2 es = (k, h) -> h = h1 ++ XRecv en m :: h2 -> bytes_received h -> m_service m = 0 ->
  (forall cm, ~ server_message (m_payload m) cm) -> h2 = [] /\ k_result k = Some (Failed OtherError).
Proof.
  intros H Eh Hb Hs Hn.
  assert (Hd0 : cmsg_from_bytes (m_payload m) = RErr).
  { destruct (cmsg_from_bytes (m_payload m)) as [cm| |] eqn:E; [|reflexivity|].
    - exfalso. apply (Hn cm). apply accept_sound; [|exact E]. apply (Hb en). rewrite Eh. apply in_or_app. right. now left.
    - exfalso. now apply (cmsg_no_panic (m_payload m)). }
  assert (Hna : read_ack m = None).
  { destruct (read_ack m) as [[x y]|] eqn:E; [|reflexivity]. apply read_ack_decode in E as [_ E]. congruence. }
  destruct (recv_cases _ _ _ _ _ _ _ _ _ _ _ H Eh) as (t & c & (I & _ & _) & [(c' & o & h3 & Hd & Hc & _)|[(kd & c' & Hd & _ & -> & ->)|(tg & c' & Hd & Hc & -> & ->)]]).
  - exfalso. inversion Hd as [| | |id' code t1 rest Ha Hx Hf|id' code t1 rest r' c1 Ha Hx Hf Hg
                   |me g ob Ha Hx Hf Hg He|q a c1 Ha Hx Hf Hg|id' tg Ha Hx Hf Hg He|cmd id' ty Ha Hx Hf Hg He Hh]; subst; try congruence.
    + destruct Hg as [[Hg _]|(_ & cm & Hg & Hg2)]; congruence.
    + apply read_request_decode in Hx. destruct Hx. congruence.
  - split; [reflexivity|]. destruct (handled_some _ _ _ _ _ _ _ _ _ _ I Hd) as [[-> _]|(_ & code & X & _)]; [reflexivity|congruence].
  - exfalso. destruct (redirect_inv2 _ _ _ _ _ _ _ _ _ _ I Hd Hc) as [(_ & _ & x & X)|(_ & X & _)]; congruence.
Qed.

(** ** A way to check histories *)
Fixpoint each (P : list cobs -> cobs -> Prop) (pre h : list cobs) : Prop :=
  match h with [] => True | x :: h' => P pre x /\ each P (pre ++ [x]) h' end.
Lemma each_all P h : forall pre, each P pre h -> forall h1 x h2, h = h1 ++ x :: h2 -> P (pre ++ h1) x.
Proof.
  induction h as [|y h IH]; intros pre H h1 x h2 E; [destruct h1; discriminate|]. destruct H as [A B].
  destruct h1 as [|z h1]; cbn [app] in E; injection E as -> ->; [now rewrite app_nil_r|].
  replace (pre ++ z :: h1) with ((pre ++ [z]) ++ h1) by now rewrite <- app_assoc. eapply IH; [exact B|reflexivity].
Qed.
Lemma polite_each h : each (fun pre x => match x with XRecv en m => proper pre en m | _ => True end) [] h -> polite h.
Proof. intros H h1 en m h2 E. exact (each_all _ _ _ H _ _ _ E). Qed.
Lemma prompt_each h :
  each (fun pre x => match x with XTick t _ _ _ => forall t1 id, In (t1, id) (outstanding pre) -> (t - t1 < 20 * SEC)%Z | _ => True end) [] h -> prompt h.
Proof. intros H h1 t a b d h2 t1 id E. exact (each_all _ _ _ H _ _ _ E t1 id). Qed.
