(** Proofs of the properties of a connection. *)
From Coq Require Import NArith ZArith List Bool Lia ZifyBool ZifyNat ZifyN.
From Verif.Model Require Import Bytes Frame Service Control Alist Session Manager Client.
From Verif.Spec Require Import ControlSpec SessionSpec ManagerSpec ClientSpec.
From Verif.Proofs Require Import BytesFacts ControlProofs AlistFacts ManagerProofs ManagerPropsPf ManagerPropsPf2
  ClientProofs ClientInv ClientRun.
Import ListNotations.
Local Open Scope N_scope.

(** ** General facts *)
Lemma redirect_inv2 t0 i v1 c h t e m c' target :
  inv t0 i v1 c h -> handled t e c m None c' [] -> c_redirect c' = Some target ->
  (registered h = true /\ m_service m = 0 /\
   exists id, cmsg_from_bytes (m_payload m) = ROk {| cm_id := id; cm_type := 3; cm_body := BRedirect target |}) \/
  (registered h = false /\ read_ack m = Some (REGISTER_ID, 0) /\ e_diagnostic e = true /\ target = []).
Proof.
  intros I Hd Hr. destruct (v_open _ _ _ _ _ I) as [_ Hn]. pose proof (v_est _ _ _ _ _ I) as Hest.
  inversion Hd as [| | |id code t1 rest Ha Hb Hc|id code t1 rest r c1 Ha Hb Hc He
                   |me g ob Ha Hb Hc Hf He|q a c1 Ha Hb Hc He|id tg Ha Hb Hc Hf He|cmd id ty Ha Hb Hc Hf He Hg]; subst.
  - csimp. congruence.
  - rewrite handshake_cases in He. destruct (N.eqb_spec code 0) as [->|]; [|congruence].
    right. destruct (v_first _ _ _ _ _ I) as (rest' & _ & Hf). assert (R : registered h = false) by congruence.
    destruct (Hf R) as (_ & F & _). destruct (e_diagnostic e).
    + injection He as <-. csimp. assert (id = REGISTER_ID) by congruence. subst id.
      split; [exact R|]. split; [exact Ha|]. split; [reflexivity|congruence].
    + injection He as <-. csimp. congruence.
  - csimp. congruence.
  - left. split; [congruence|]. split; [exact Hf|]. exists id. unfold redirected in Hr. csimp.
    assert (target = tg) as -> by (destruct (c_task c); csimp; congruence). exact He.
Qed.

Lemma handled_some t0 i v1 c h t e m k c' :
  inv t0 i v1 c h -> handled t e c m (Some k) c' [] ->
  (k = OtherError /\
   (read_ack m = None /\ (registered h = false \/ (m_service m = 0 /\ cmsg_from_bytes (m_payload m) = RErr)) \/
    exists id code, read_ack m = Some (id, code) /\ (forall t1 rest, outstanding h <> (t1, id) :: rest))) \/
  (registered h = false /\ exists code, read_ack m = Some (REGISTER_ID, code) /\ code <> 0 /\ k = verdict code).
Proof.
  intros I Hd. pose proof (v_est _ _ _ _ _ I) as Hest. pose proof (v_acks _ _ _ _ _ I) as Hacks.
  inversion Hd as [Ha Hb|id code Ha Hb|id code t1 x rest Ha Hb Hc| |id code t1 rest r c1 Ha Hb Hc He| | | |]; subst.
  - left. split; [reflexivity|]. left. rewrite <- Hest. auto.
  - left. split; [reflexivity|]. right. exists id, code. split; [exact Ha|]. intros t1 rest. rewrite <- Hacks, Hb. discriminate.
  - left. split; [reflexivity|]. right. exists id, code. split; [exact Ha|]. intros t2 rest2. rewrite <- Hacks, Hb. congruence.
  - right. rewrite handshake_cases in He. destruct (N.eqb_spec code 0); [discriminate|].
    destruct (v_first _ _ _ _ _ I) as (rest' & _ & Hf). assert (R : registered h = false) by congruence.
    destruct (Hf R) as (_ & F & _). assert (id = REGISTER_ID) by congruence. subst id.
    split; [exact R|]. exists code. split; [exact Ha|]. split; [assumption|congruence].
Qed.

Lemma tick_recv t0 i v1 c h t a b d r c' o :
  run_ok t0 i v1 c h -> time_event t c a b d = (r, c', o) ->
  received o = [] /\ sent o = [] /\ answers o = [] /\ (registered h = false -> o = []).
Proof.
  intros R H. destruct (tick_shape _ _ _ _ _ _ _ _ _ _ _ _ R H) as (_ & _ & p & u & -> & Hp & Hu).
  destruct (registered h) eqn:E; cbn [andb] in *.
  - assert (Hp' : (exists n, p = [XQueue t (mk_ping n)]) \/ p = []) by (destruct (_ <=? _)%Z in Hp; auto).
    assert (Hu' : (exists n, u = [XQueue t (mk_update n (table_of_services (v_visible b)))]) \/ u = []).
    { destruct (_ && _) in Hu; destruct Hu; auto. }
    destruct Hp' as [[n ->]| ->], Hu' as [[n' ->]| ->]; repeat split; discriminate.
  - destruct Hu as [-> _]. subst p. repeat split.
Qed.

(** ** C25 *)
Lemma strict t0 i v1 v2 es k h :
  connection t0 i v1 v2 es = (k, h) ->
  exists rest, h = XQueue t0 (reg_msg i v1) :: rest /\
    (registered h = false ->
       Forall (before_registration (reg_msg i v1)) rest /\ (length (sent h) <= 1)%nat /\ (length (received h) <= 1)%nat /\
       (received h <> [] -> exists kd, k_result k = Some (Failed kd))).
Proof.
  intros H. apply connection_reached in H. unfold reached in H. destruct (k_result k) as [r|] eqn:Er.
  - destruct H as (c & h0 & o & F & Hc & ->). destruct F as (R & _ & _). destruct R as (I & L & A).
    destruct (v_first _ _ _ _ _ I) as (rest & E & Hf). exists (rest ++ o). split; [now rewrite E|].
    intros Hr. assert (R0 : registered h0 = false).
    { destruct (registered h0) eqn:R0; [|reflexivity]. rewrite (registered_mono h0 o R0) in Hr. discriminate. }
    destruct (Hf R0) as (F1 & F2 & F3 & F4). pose proof (first_ok_none _ (v_recv _ _ _ _ _ I) R0) as Hn.
    assert (Hs : (length (sent h0) <= 1)%nat) by (destruct F4 as [[-> _]|[-> _]]; cbn; lia).
    rewrite received_app, sent_app, Hn. cbn [app].
    inversion Hc as [t e m kd c' Hd Hk|t e m c' tg Hd Ht|kd Hk|t a b d c' o' Ht]; subst o r.
    + rewrite app_nil_r. split; [apply Forall_app; split; [exact F1|]; constructor; [exact Logic.I|constructor]|].
      split; [exact Hs|]. split; [cbn; lia|]. eauto.
    + exfalso. destruct (redirect_inv2 _ _ _ _ _ _ _ _ _ _ I Hd Ht) as [[X _]|(_ & X & _)]; [congruence|].
      unfold registered in Hr. rewrite received_app, Hn in Hr. cbn [app received flat_map] in Hr. rewrite X in Hr. discriminate.
    + rewrite !app_nil_r. split; [exact F1|]. split; [exact Hs|]. split; [cbn; lia|]. eauto.
    + destruct (tick_recv _ _ _ _ _ _ _ _ _ _ _ _ (conj I (conj L A)) Ht) as (_ & _ & _ & X). rewrite (X R0).
      rewrite app_nil_r. split; [apply Forall_app; split; [exact F1|]; constructor; [exact Logic.I|constructor]|].
      split; [exact Hs|]. split; [cbn; lia|]. eauto.
  - destruct H as ((I & _ & _) & _ & _). destruct (v_first _ _ _ _ _ I) as (rest & E & Hf). exists rest. split; [exact E|].
    intros Hr. destruct (Hf Hr) as (F1 & F2 & F3 & F4). pose proof (first_ok_none _ (v_recv _ _ _ _ _ I) Hr) as Hn.
    rewrite Hn. split; [exact F1|]. split; [destruct F4 as [[-> _]|[-> _]]; cbn; lia|]. split; [cbn; lia|]. congruence.
Qed.

(** ** C26 *)
Lemma verdicts t0 i v1 v2 es k h e m l :
  connection t0 i v1 v2 es = (k, h) -> received h = (e, m) :: l ->
  match read_ack m with
  | Some (id, code) =>
      if id =? REGISTER_ID then
        if code =? 0 then
          if e_diagnostic e then k_result k = Some (Redirected []) /\ l = []
          else k_result k = None -> c_established (k_ctx k) = true
        else k_result k = Some (Failed (verdict code)) /\ l = []
      else k_result k = Some (Failed OtherError) /\ l = []
  | None => k_result k = Some (Failed OtherError) /\ l = []
  end.
Proof.
  intros H Hrec. apply connection_reached in H. unfold reached in H.
  assert (Hgood : forall c h0 o, run_ok t0 i v1 c h0 -> received h0 <> [] -> h = h0 ++ o ->
    exists e' m', registered h0 = true /\ received h0 = (e', m') :: tl (received h0) /\ e' = e /\ m' = m /\
      read_ack m = Some (REGISTER_ID, 0) /\ e_diagnostic e = false).
  { intros c h0 o (I & _ & _) Hne ->. pose proof (v_recv _ _ _ _ _ I) as Hf. unfold first_ok in Hf.
    destruct (received h0) as [|[e' m'] l'] eqn:E0; [congruence|]. destruct Hf as [R Hdg].
    rewrite received_app, E0 in Hrec. injection Hrec as -> -> _. exists e, m.
    split; [exact R|]. split; [reflexivity|]. split; [reflexivity|]. split; [reflexivity|]. split; [|exact Hdg].
    unfold registered in R. rewrite E0 in R. destruct (read_ack m) as [[id code]|]; [|discriminate].
    f_equal. f_equal; lia. }
  destruct (k_result k) as [r|] eqn:Er.
  - destruct H as (c & h0 & o & F & Hc & Eh). destruct F as (R & _ & _).
    destruct (received h0) as [|p q] eqn:E0.
    + destruct R as (I & L & A). pose proof Hrec as Hrec2. rewrite Eh, received_app, E0 in Hrec. cbn [app] in Hrec.
      assert (R0 : registered h0 = false) by (unfold registered; now rewrite E0).
      inversion Hc as [t e1 m1 kd c' Hd Hk|t e1 m1 c' tg Hd Ht|kd Hk|t a b d c' o' Ht]; subst o r.
      * cbn in Hrec. injection Hrec as -> -> <-.
        destruct (handled_some _ _ _ _ _ _ _ _ _ _ I Hd) as [[-> [[X _]|(id & code & X & Y)]]|(_ & code & X & Y & ->)]; rewrite X.
        -- auto.
        -- destruct (N.eqb_spec id REGISTER_ID) as [->|]; [|auto].
           exfalso. destruct (v_first _ _ _ _ _ I) as (rest & _ & Hf). destruct (Hf R0) as (_ & F & _).
           rewrite (v_acks _ _ _ _ _ I) in F. eapply Y. exact F.
        -- rewrite N.eqb_refl. destruct (N.eqb_spec code 0); [congruence|]. auto.
      * cbn in Hrec. injection Hrec as -> -> <-.
        destruct (redirect_inv2 _ _ _ _ _ _ _ _ _ _ I Hd Ht) as [[X _]|(_ & X & Y & ->)]; [congruence|].
        rewrite X, Y. cbn. auto.
      * discriminate.
      * destruct (tick_recv _ _ _ _ _ _ _ _ _ _ _ _ (conj I (conj L A)) Ht) as (X & _ & _ & _). cbn in Hrec. change (received o' = (e,m)::l) in Hrec. congruence.
    + destruct (Hgood c h0 o R) as (e' & m' & _ & _ & _ & _ & X & Y); [congruence|exact Eh|]. rewrite X, Y. cbn. discriminate.
  - destruct H as (R & _ & _). destruct (Hgood (k_ctx k) h [] R) as (e' & m' & X0 & _ & _ & _ & X & Y); [congruence|now rewrite app_nil_r|].
    rewrite X, Y. cbn. intros _. rewrite (v_est _ _ _ _ _ (proj1 R)). exact X0.
Qed.

(** ** C27 *)
Lemma acks_exact t0 i v1 v2 es k h :
  connection t0 i v1 v2 es = (k, h) -> k_result k = None -> c_acks (k_ctx k) = outstanding h.
Proof.
  intros H Hr. apply connection_reached in H. unfold reached in H. rewrite Hr in H. destruct H as ((I & _ & _) & _ & _).
  exact (v_acks _ _ _ _ _ I).
Qed.

Lemma recv_cases t0 i v1 v2 es k h h1 e m h2 :
  connection t0 i v1 v2 es = (k, h) -> h = h1 ++ XRecv e m :: h2 ->
  exists t c, run_ok t0 i v1 c h1 /\
    ((exists c' o h3, handled t e c m None c' o /\ is_closed c' = false /\ h2 = o ++ h3) \/
     (exists kd c', handled t e c m (Some kd) c' [] /\ kd <> EPanic /\ h2 = [] /\ k_result k = Some (Failed kd)) \/
     (exists tg c', handled t e c m None c' [] /\ c_redirect c' = Some tg /\ h2 = [] /\ k_result k = Some (Redirected tg))).
Proof.
  intros H Eh. apply connection_reached in H. unfold reached in H.
  assert (Hex : forall h0 o, explained t0 i v1 h0 -> (exists h2', h0 = h1 ++ XRecv e m :: h2' /\ h2 = h2' ++ o) ->
    exists t c, run_ok t0 i v1 c h1 /\ exists c' ob h3, handled t e c m None c' ob /\ is_closed c' = false /\ h2 = ob ++ h3).
  { intros h0 o Hx (h2' & E & E2). destruct (Hx _ _ _ E) as (t & c & c' & ob & h3 & A & B & C & D).
    exists t, c. split; [exact A|]. exists c', ob, (h3 ++ o). rewrite app_assoc, <- D. auto. }
  destruct (k_result k) as [r|] eqn:Er.
  - destruct H as (c & h0 & o & (R & X & _) & Hc & E). rewrite Eh in E. symmetry in E. apply app_split in E as [E1|(o1 & E & ->)].
    + destruct (Hex h0 o X E1) as (t & c1 & A & B). exists t, c1. auto.
    + revert E. inversion Hc as [t e1 m1 kd c' Hd Hk|t e1 m1 c' tg Hd Ht|kd Hk|t a b d c' o' Ht]; subst o r; intros E.
      * destruct o1 as [|y o1]; [|destruct o1; discriminate]. injection E as -> -> <-. rewrite app_nil_r.
        exists t, c. split; [exact R|]. right. left. exists kd, c'. auto.
      * destruct o1 as [|y o1]; [|destruct o1; discriminate]. injection E as -> -> <-. rewrite app_nil_r.
        exists t, c. split; [exact R|]. right. right. exists tg, c'. auto.
      * destruct o1; discriminate.
      * exfalso. destruct (tick_recv _ _ _ _ _ _ _ _ _ _ _ _ R Ht) as (Y & _).
        assert (Z : received (XTick t a b d :: o') <> []).
        { rewrite E, received_app. cbn. intros Z. now apply app_eq_nil in Z as [_ Z]. }
        apply Z. exact Y.
  - destruct H as (R & X & _). destruct (Hex h [] X) as (t & c1 & A & B); [exists h2; rewrite app_nil_r; auto|].
    exists t, c1. auto.
Qed.

Lemma ack_order t0 i v1 v2 es k h h1 e m h2 id code :
  connection t0 i v1 v2 es = (k, h) -> h = h1 ++ XRecv e m :: h2 -> read_ack m = Some (id, code) ->
  (exists t rest, outstanding h1 = (t, id) :: rest) \/ (h2 = [] /\ k_result k = Some (Failed OtherError)).
Proof.
  intros H Eh Ha. destruct (recv_cases _ _ _ _ _ _ _ _ _ _ _ H Eh) as (t & c & (I & _ & _) & [(c' & o & h3 & Hd & _)|[(kd & c' & Hd & _ & -> & ->)|(tg & c' & Hd & _ & _)]]);
    pose proof (v_acks _ _ _ _ _ I) as Hk.
  - left. inversion Hd; subst; try congruence; rewrite <- Hk.
    + assert (id0 = id) by congruence. subst. eauto.
    + assert (id0 = id) by congruence. subst. eauto.
  - destruct (handled_some _ _ _ _ _ _ _ _ _ _ I Hd) as [[-> _]|(R & code' & X & _ & ->)]; [auto|].
    left. rewrite X in Ha. injection Ha as <- _. destruct (v_first _ _ _ _ _ I) as (rest' & _ & Hf). destruct (Hf R) as (_ & F & _).
    rewrite Hk in F. eauto.
  - left. inversion Hd; subst; try congruence; rewrite <- Hk.
    + assert (id0 = id) by congruence. subst. eauto.
    + assert (id0 = id) by congruence. subst. eauto.
Qed.

Lemma full_poll_nil t0 i v1 v2 c h p c' o :
  full t0 i v1 v2 c h -> client_loop c [] = (p, c', o) ->
  (p = PPending /\ full t0 i v1 v2 c' (h ++ o)) \/ (exists m, p = PReady m /\ full t0 i v1 v2 c' (h ++ o ++ [XSent m])).
Proof.
  intros F. cbn [client_loop]. destruct (ctx_poll c) as [[p1 c1] o1] eqn:Ep.
  destruct (full_poll _ _ _ _ _ _ _ _ _ F Ep) as [(-> & F1 & _)|(m & -> & F1)]; intros [= <- <- <-]; eauto.
Qed.

Lemma outstanding_calm h o :
  forallb (fun x => match x with XQueue _ m => negb (needs_ack m) | XRecv _ m => match read_ack m with None => true | _ => false end | _ => true end) o = true ->
  outstanding (h ++ o) = outstanding h.
Proof.
  induction o as [|x o IH] using rev_ind; intros H; [now rewrite app_nil_r|].
  rewrite forallb_app in H. apply andb_true_iff in H as [H1 H2]. rewrite app_assoc, outstanding_snoc, (IH H1).
  destruct x; cbn in *; try reflexivity.
  - destruct (read_ack m); [discriminate|reflexivity].
  - destruct (needs_ack m); [discriminate|reflexivity].
Qed.

Lemma poll_quiet c p c' o : ctx_poll c = (p, c', o) -> exists ob, o = map XMgr ob.
Proof.
  unfold ctx_poll. destruct (is_closed c); [intros [= <- <- <-]; now exists []|].
  destruct (c_messages c); [|intros [= <- <- <-]; now exists []].
  destruct (mgr_poll (c_mgr c)) as [g ob]. destruct (polled_msg ob); intros [= <- <- <-]; now exists ob.
Qed.

Lemma ack_accepted t0 i v1 v2 es k h t1 id rest code e t m :
  connection t0 i v1 v2 es = (k, h) -> k_result k = None -> registered h = true ->
  outstanding h = (t1, id) :: rest -> read_ack m = Some (id, code) ->
  let '(k', o) := conn_step k (KPoll [SMsg t e m]) in k_result k' = None /\ outstanding (h ++ o) = rest.
Proof.
  intros H Hr Hreg Ho Ha. apply connection_reached in H. unfold reached in H. rewrite Hr in H.
  destruct (read_ack_decode _ _ _ Ha) as [Hs Hdec]. destruct H as (R & X & V). destruct R as (I & L & A).
  assert (Hp : process_message t e (k_ctx k) m = (None, set_acks (k_ctx k) rest, [XRecv e m])).
  { unfold process_message. rewrite (open_not_closed _ (v_open _ _ _ _ _ I)), Hs, Hdec. cbn [N.eqb].
    unfold process_control. cbn [cm_type cm_body cm_id]. change (message_type 0) with ACK. cbv iota.
    unfold process_ack. rewrite (v_acks _ _ _ _ _ I), Ho, N.eqb_refl, (v_est _ _ _ _ _ I), Hreg. reflexivity. }
  assert (F : full t0 i v1 v2 (set_acks (k_ctx k) rest) (h ++ [XRecv e m])).
  { apply (full_recv _ _ _ _ (k_ctx k) h t e m (set_acks (k_ctx k) rest) []).
    - split; [split; auto|split; auto].
    - eapply Hd_ack_ok; [exact Ha|rewrite (v_acks _ _ _ _ _ I); exact Ho|rewrite (v_est _ _ _ _ _ I); exact Hreg].
    - apply open_not_closed. apply (v_open _ _ _ _ _ I).
    - assert (Hd : handled t e (k_ctx k) m None (set_acks (k_ctx k) rest) []).
      { eapply Hd_ack_ok; [exact Ha|rewrite (v_acks _ _ _ _ _ I); exact Ho|rewrite (v_est _ _ _ _ _ I); exact Hreg]. }
      destruct (feed_running _ _ _ _ _ _ _ _ _ _ _ (conj I (conj L A)) Hd) as [(_ & _ & Y & _)|(_ & [(kd & Y & _)|(_ & tg & Y)])]; [exact Y|discriminate|].
      csimp. destruct (v_open _ _ _ _ _ I). congruence.
    - reflexivity. }
  unfold conn_step. rewrite Hr. cbn [client_poll feed_item]. rewrite Hp.
  cbn [client_loop]. destruct (ctx_poll (set_acks (k_ctx k) rest)) as [[p1 c1] o1] eqn:Ep.
  destruct (poll_quiet _ _ _ _ Ep) as [ob ->].
  assert (Hh : outstanding (h ++ [XRecv e m]) = rest).
  { rewrite outstanding_snoc. cbn [outstanding_step]. rewrite Ha, Ho. reflexivity. }
  destruct (full_poll _ _ _ _ _ _ _ _ _ F Ep) as [(-> & F1 & _)|(m1 & -> & F1)]; cbn [k_result].
  - split; [reflexivity|]. change ([XRecv e m] ++ map XMgr ob) with ([XRecv e m] ++ map XMgr ob). rewrite app_assoc, outstanding_mgr. exact Hh.
  - split; [reflexivity|]. rewrite !app_assoc. rewrite outstanding_snoc. cbn [outstanding_step]. rewrite outstanding_mgr. exact Hh.
Qed.
