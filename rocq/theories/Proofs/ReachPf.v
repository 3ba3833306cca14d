(** From an announced service to the device a CONNECT reaches. *)
From Coq Require Import NArith ZArith List Bool Lia Permutation.
From Verif.Model Require Import Bytes Frame Service Control Alist SvcTable Session Manager Client Config.
From Verif.Spec Require Import ControlSpec ClientSpec TableSpec ConfigSpec ReachSpec.
From Verif.Proofs Require Import BytesFacts AlistFacts ControlProofs ControlReaders TableProofs TablePropsPf TableExpiry ClientPropsPf2.
Import ListNotations.
Local Open Scope N_scope.

(** ** Tables *)
Lemma run_app hash os1 os2 : forall t t1, tbl_run hash t os1 = ROk t1 -> tbl_run hash t (os1 ++ os2) = tbl_run hash t1 os2.
Proof.
  induction os1 as [|o os1 IH]; cbn [tbl_run app]; intros t t1 H; [now injection H as ->|].
  destruct (tbl_step hash t o); try discriminate. now apply IH.
Qed.

Lemma run_last hash os t t' : consistent t -> built_ops os -> tbl_run hash t os = ROk t' ->
  forall k id, assigned t' k id -> stored t' id = last_service k (adds os) (stored t id).
Proof.
  revert os t t'. apply (run_induction hash (fun t os t' =>
    forall k id, assigned t' k id -> stored t' id = last_service k (adds os) (stored t id))).
  - reflexivity.
  - intros t o t1 os t' K Hb E Hs K1 H K' IH k id Hk. rewrite (IH k id Hk). rewrite adds_cons.
    apply built_ops_cons in Hb as [Hb1 Hb2].
    destruct (added o) as [[now s]|] eqn:Ha.
    + cbn [app last_service]. f_equal. destruct (step_touch _ _ _ _ _ Hs Ha) as (i & e & He & Hes & _ & _ & Ho).
      pose proof (touched_iff hash t1 os t' i e id k s K1 Hb2 H K' He Hes Hk) as Ht.
      unfold stored. destruct (ident_eq_dec k (to_ident s)) as [Hik|Hik].
      * symmetry in Hik. apply Ht in Hik. subst i. rewrite He. cbn. now rewrite Hes.
      * rewrite Ho; [reflexivity|]. intros ->. apply Hik. symmetry. now apply Ht.
    + cbn [app]. f_equal. destruct Hs as [now -> ->|now s i e Ha' _ _ _|now s i h st Ha' _ _ _ _ _]; try congruence.
      now rewrite stored_refresh.
Qed.

Lemma last_in k : forall l d s, last_service k l d = Some s -> d = Some s \/ exists t, In (t, s) l.
Proof.
  induction l as [|[t x] l IH]; cbn [last_service]; intros d s H; [auto|].
  destruct (IH _ _ H) as [E|[t0 Hi]]; [|right; exists t0; now right].
  destruct (ident_eq_dec _ _); [|auto]. injection E as ->. right. exists t. now left.
Qed.

Section Table.
  Variable hash : ident -> N.
  Variable t : table.
  Variable os : list top.
  Hypothesis K : consistent t.
  Hypothesis B : built_ops os.
  Hypothesis Ht : forall id s, stored t id = Some s -> plain s.
  Hypothesis Ho : forall now s, In (now, s) (adds os) -> plain s.
  Let P := moment hash t os.

  Lemma adds_app a b : adds (a ++ b) = adds a ++ adds b.
  Proof. apply flat_map_app. Qed.
  Lemma moment_ok t' : P t' -> exists os1 os2, os = os1 ++ os2 /\ tbl_run hash t os1 = ROk t' /\ built_ops os1 /\ built_ops os2 /\ consistent t'.
  Proof using K B. clear Ht Ho.
    intros (os1 & os2 & -> & H). exists os1, os2. assert (X : built_ops os1 /\ built_ops os2).
    { unfold built_ops in *. rewrite adds_app in B. now apply Forall_app in B. }
    destruct X as [B1 B2]. split; [auto|]. split; [exact H|]. split; [exact B1|]. split; [exact B2|]. exact (run_consistent _ _ _ _ K B1 H).
  Qed.
  Lemma moment_consistent t' : P t' -> consistent t'.
  Proof using K B. intros H. now destruct (moment_ok _ H) as (? & ? & _ & _ & _ & _ & C). Qed.

  Lemma moment_plain t' id s : P t' -> stored t' id = Some s -> plain s.
  Proof.
    intros H Hs. destruct (moment_ok _ H) as (os1 & os2 & E & R & B1 & _ & _).
    assert (A : assigned t' (to_ident s) id) by (exists s; auto).
    rewrite (run_last _ _ _ _ K B1 R _ _ A) in Hs. apply last_in in Hs as [Hs|[now Hi]]; [eauto|].
    apply (Ho now). rewrite E, adds_app. apply in_or_app. auto.
  Qed.

  (** An ID stands for one identity at all moments. *)
  Lemma moments_agree a b id s s' : P a -> P b -> stored a id = Some s -> stored b id = Some s' -> to_ident s = to_ident s'.
  Proof using K B. clear Ht Ho.
    assert (W : forall os1 os2 c d a b s s', os = c ++ os2 -> os = d ++ os1 -> tbl_run hash t c = ROk a -> tbl_run hash t d = ROk b ->
      (length c <= length d)%nat -> stored a id = Some s -> stored b id = Some s' -> to_ident s = to_ident s').
    { clear a b s s'. intros os1 os2 c d a b s s' E1 E2 Ra Rb L Sa Sb.
      assert (X : d = c ++ skipn (length c) d).
      { assert (F : c = firstn (length c) d).
        { rewrite E1 in E2. apply (f_equal (firstn (length c))) in E2.
          rewrite firstn_app, firstn_all, Nat.sub_diag, firstn_O, app_nil_r in E2.
          rewrite firstn_app in E2. replace (length c - length d)%nat with 0%nat in E2 by lia. now rewrite firstn_O, app_nil_r in E2. }
        rewrite F at 1. symmetry. apply firstn_skipn. }
      rewrite X, (run_app _ _ _ _ _ Ra) in Rb.
      assert (Ba : built_ops c) by (unfold built_ops in *; rewrite E1, adds_app in B; now apply Forall_app in B).
      assert (Bd : built_ops (skipn (length c) d)).
      { unfold built_ops in *. rewrite E2, X, !adds_app in B. apply Forall_app in B as [B' _]. now apply Forall_app in B'. }
      pose proof (run_consistent _ _ _ _ K Ba Ra) as Ka.
      destruct (ids_stable _ _ _ _ _ _ Ka Bd Rb (ex_intro _ s (conj Sa eq_refl))) as (_ & _ & U & _).
      symmetry. apply U. exists s'. auto. }
    intros (c & os2 & E1 & Ra) (d & os1 & E2 & Rb) Sa Sb.
    destruct (Nat.le_ge_cases (length c) (length d)) as [L|L].
    - exact (W _ _ _ _ _ _ _ _ E1 E2 Ra Rb L Sa Sb).
    - symmetry. exact (W _ _ _ _ _ _ _ _ E2 E1 Rb Ra L Sb Sa).
  Qed.

  Lemma visible_stored t' p : P t' -> In p (tbl_visible t') -> stored t' (fst p) = Some (snd p) /\ svc_is_control (snd p) = false.
  Proof using K B. clear Ht Ho.
    intros H Hi. pose proof (moment_consistent _ H) as C. unfold tbl_visible in Hi. apply in_map_iff in Hi as ((id & e) & <- & Hi).
    apply filter_In in Hi as [Hi Hv]. cbn [fst snd] in *.
    assert (E : alookup id (t_map t') = Some e) by (apply alookup_unique; [apply (k_unique _ C)|exact Hi]).
    destruct (k_entry _ C _ _ E) as (-> & _). unfold stored. rewrite E. cbn. split; [reflexivity|].
    apply andb_true_iff in Hv as [_ Hv]. now apply negb_true_iff.
  Qed.
  Lemma visible_ids t' : P t' -> NoDup (map fst (tbl_visible t')).
  Proof using K B. clear Ht Ho.
    intros H. pose proof (moment_consistent _ H) as C. unfold tbl_visible. rewrite map_map. cbn [fst].
    assert (X : forall l, (forall p, In p l -> n_id (snd p) = fst p) -> NoDup (map fst l) ->
      NoDup (map (fun p => n_id (snd p)) (filter (fun p : N * SvcTable.entry => is_visible (snd p) && negb (svc_is_control (n_svc (snd p)))) l))).
    { induction l as [|p l IH]; cbn [map filter]; intros Hp Hn; [constructor|]. inversion Hn; subst.
      assert (IH' := IH (fun q Hq => Hp q (or_intror Hq)) H3). destruct (_ && _); [|exact IH'].
      cbn [map]. constructor; [|exact IH']. rewrite (Hp p (or_introl eq_refl)). intros Hi. apply H2.
      apply in_map_iff in Hi as (q & Eq & Hq). apply filter_In in Hq as [Hq _]. rewrite (Hp q (or_intror Hq)) in Eq.
      rewrite <- Eq. now apply in_map. }
    apply X; [|apply (k_unique _ C)]. intros (id & e) Hi. cbn [fst snd].
    assert (E : alookup id (t_map t') = Some e) by (apply alookup_unique; [apply (k_unique _ C)|exact Hi]).
    now destruct (k_entry _ C _ _ E).
  Qed.
  Lemma stored_id t' id s : P t' -> stored t' id = Some s -> svc_is_control s = false -> id < 2 ^ 16 /\ id <> 0.
  Proof using K B. clear Ht Ho.
    intros H Hs Hc. pose proof (moment_consistent _ H) as C. unfold stored in Hs.
    destruct (alookup id (t_map t')) as [e|] eqn:E; [|discriminate]. injection Hs as <-.
    split; [now destruct (k_entry _ C _ _ E) as (_ & L & _)|]. intros ->.
    destruct (k_control _ C) as (e' & E' & Ec & _). assert (e' = e) by congruence. subst e'. rewrite Ec in Hc. discriminate.
  Qed.
  Lemma visible_entries t' : P t' -> Forall wf_entry (tbl_visible t') /\ Forall (fun e => nul_free_path (snd e)) (tbl_visible t').
  Proof.
    intros H. rewrite !Forall_forall. split; intros p Hp; destruct (visible_stored _ _ H Hp) as [Hs Hc];
      destruct (moment_plain _ _ _ H Hs) as [W F]; [|exact F].
    destruct (stored_id _ _ _ H Hs Hc) as [L Z]. split; [exact L|]. split; [now left|exact W].
  Qed.

  (** What an entry says about the identity behind its ID. *)
  Definition tells (x : entry) : Prop :=
    exists t' s, P t' /\ stored t' (e_id x) = Some s /\ svc_is_control s = false /\
      e_type x = svc_code (s_type s) /\ e_mac x = (match s_mac s with Some m => m | None => 0 end) /\
      e_port x = (match s_addr s with Some a => sa_port a | None => 0 end) /\
      e_path x = (match s_path s with Some p => p | None => [] end).

  Lemma announce_tells t' p : P t' -> In p (tbl_visible t') -> tells (announce p).
  Proof using K B. clear Ht Ho.
    intros H Hp. destruct (visible_stored _ _ H Hp) as [Hs Hc]. destruct p as [id s]. exists t', s. cbn [announce e_id e_type e_mac e_port e_path fst snd] in *.
    repeat split; auto.
  Qed.
End Table.

(** ** Reading messages of other types *)
Lemma encode_head m : cm_type m < 65536 -> exists a b c d r, cmsg_encode m = a :: b :: c :: d :: r /\ value [c; d] = cm_type m.
Proof.
  intros L. unfold cmsg_encode. cbn [to_be app]. eexists _, _, _, _, _. split; [reflexivity|].
  unfold value. cbn [fold_left]. rewrite N.mul_0_l, N.add_0_l.
  rewrite (N.mod_small (cm_type m / 256) 256) by (apply N.div_lt_upper_bound; lia).
  rewrite N.mul_comm. symmetry. apply N.div_mod. discriminate.
Qed.
Lemma read_register_type m x : cm_type m < 65536 -> read_register (cmsg_encode m) = Some x -> cm_type m = 2.
Proof.
  intros L. destruct (encode_head m L) as (a & b & c & d & r & -> & <-). unfold read_register, take.
  destruct (Nat.leb _ _); [|discriminate]. cbn [firstn skipn]. destruct (N.eqb_spec (value [c; d]) 2); [auto|discriminate].
Qed.
Lemma read_update_type m x : cm_type m < 65536 -> read_update (cmsg_encode m) = Some x -> cm_type m = 4.
Proof.
  intros L. destruct (encode_head m L) as (a & b & c & d & r & -> & <-). unfold read_update, take.
  destruct (Nat.leb _ _); [|discriminate]. cbn [firstn skipn]. destruct (N.eqb_spec (value [c; d]) 4); [auto|discriminate].
Qed.
Lemma read_report_type m x : cm_type m < 65536 -> read_report (cmsg_encode m) = Some x -> cm_type m = 11.
Proof.
  intros L. destruct (encode_head m L) as (a & b & c & d & r & -> & <-). unfold read_report, take.
  destruct (Nat.leb _ _); [|discriminate]. cbn [firstn skipn]. destruct (N.eqb_spec (value [c; d]) 11); [auto|discriminate].
Qed.

(** ** What a connection sends *)
Section Messages.
  Variable i : identity.
  Variable v1 : view.
  Variable V : view -> Prop.
  Variable G : env -> bytes -> Prop.

  Definition proper (m : cmsg) : Prop :=
    (exists v id, V v /\ m = mk_update (u16 id) (table_of_services (v_visible v))) \/
    m = reg_msg i v1 \/
    (exists e id m0 cm, G e m0 /\ cmsg_from_bytes m0 = ROk cm /\
       m = mk_scan_report (u16 id) (cm_id cm) (e_hosts e) (scan_report_services (e_get_id e) (e_services e))) \/
    (cm_type m = 0 \/ cm_type m = 1 \/ cm_type m = 9).
  Definition kept (x : cobs) : Prop :=
    match x with
    | XRecv e m => V (e_table e)
    | XQueue _ m => proper m
    | _ => True
    end.
  Definition fine (e : kev) : Prop :=
    match e with
    | KTick _ _ b _ => V b
    | KPoll items => forall t en m, In (SMsg t en m) items -> V (e_table en) /\ G en (m_payload m)
    | _ => True
    end.

  Lemma kept_mgr o : Forall kept (map XMgr o).
  Proof. apply Forall_forall. intros x Hx. apply in_map_iff in Hx as (y & <- & _). exact Logic.I. Qed.
  Lemma queue_kept t c m : proper m -> Forall kept (snd (send_control t c m)).
  Proof. intros H. constructor; [exact H|constructor]. Qed.
  Lemma time_kept t c a b d r c' o : time_event t c a b d = (r, c', o) -> V b -> Forall kept o.
  Proof.
    intros H Hb. unfold time_event in H.
    assert (X : forall c1, Forall kept (snd (send_ping t c1))).
    { intros c1. unfold send_ping, c_next_id. cbn [next_id]. constructor; [|constructor]. right. right. right. right. now left. }
    assert (Y : forall c1, Forall kept (snd (check_for_updates t c1 a b d))).
    { intros c1. unfold check_for_updates. destruct (_ =? _); [constructor|]. unfold send_update, c_next_id. cbn [next_id].
      constructor; [|constructor]. left. eexists _, _. split; [exact Hb|reflexivity]. }
    destruct (c_established c); [|injection H as <- <- <-; constructor].
    assert (X1 : Forall kept (snd (if (PING_PERIOD <=? t - c_last_ping c)%Z then send_ping t c else (c, [])))) by (destruct (_ <=? _)%Z; [apply X|constructor]).
    destruct (if (PING_PERIOD <=? t - c_last_ping c)%Z then send_ping t c else (c, [])) as [c1 o1]. cbn [snd] in X1.
    assert (Y1 : Forall kept (snd (if (UPDATE_CHECK_PERIOD <=? t - c_last_check c1)%Z then check_for_updates t c1 a b d else (c1, [])))) by (destruct (_ <=? _)%Z; [apply Y|constructor]).
    destruct (if (UPDATE_CHECK_PERIOD <=? t - c_last_check c1)%Z then check_for_updates t c1 a b d else (c1, [])) as [c2 o2]. cbn [snd] in Y1.
    injection H as <- <- <-. apply Forall_app. auto.
  Qed.
  Lemma control_kept t e c m0 m r c' o : G e m0 -> cmsg_from_bytes m0 = ROk m -> process_control t e c m = (r, c', o) -> Forall kept o.
  Proof.
    intros Ge D H. unfold process_control in H. cbv zeta in H.
    destruct (message_type (cm_type m)); destruct (cm_body m); try (injection H as <- <- <-; constructor);
      try (destruct (process_ack _ _ _ _) as [? ?]; injection H as <- <- <-; constructor);
      (destruct (c_established c); [|injection H as <- <- <-; constructor]); unfold lift_mgr in H; cbn [c_next_id next_id] in H;
      try (destruct (mgr_connect _ _ _ _)); try (destruct (mgr_data_ack _ _ _)); try (destruct (mgr_close _ _)); cbn [fst snd] in H;
      injection H as <- <- <-; try apply kept_mgr; try (constructor; fail);
      (constructor; [|constructor]); try exact Logic.I;
      try (right; right; right; cbn; auto; fail); try (right; right; left; eexists _, _, _, _; eauto; fail).
  Qed.
  Lemma message_kept t e c m r c' o : V (e_table e) -> G e (m_payload m) -> process_message t e c m = (r, c', o) -> Forall kept o.
  Proof.
    intros Hv Ge H. unfold process_message in H. destruct (is_closed c); [injection H as <- <- <-; constructor|].
    destruct (m_service m =? 0).
    - destruct (cmsg_from_bytes (m_payload m)) as [cm| |] eqn:D;
        [|injection H as <- <- <-; constructor; [exact Hv|constructor]..].
      destruct (process_control t e c cm) as [[r1 c1] o1] eqn:C. injection H as <- <- <-.
      constructor; [exact Hv|]. exact (control_kept _ _ _ _ _ _ _ _ Ge D C).
    - destruct (c_established c); [|injection H as <- <- <-; constructor; [exact Hv|constructor]].
      unfold lift_mgr in H. destruct (mgr_send (c_mgr c) m). injection H as <- <- <-. constructor; [exact Hv|apply kept_mgr].
  Qed.
  Lemma poll_kept c p c' o : ctx_poll c = (p, c', o) -> Forall kept o.
  Proof.
    unfold ctx_poll. destruct (is_closed c); [intros E; injection E as <- <- <-; constructor|].
    destruct (c_messages c); [|intros E; injection E as <- <- <-; constructor].
    destruct (mgr_poll (c_mgr c)) as [g om]. destruct (polled_msg om); intros E; injection E as <- <- <-; apply kept_mgr.
  Qed.
  Definition fine_item (x : sitem) : Prop :=
    match x with SMsg _ en m => V (e_table en) /\ G en (m_payload m) | _ => True end.
  Lemma feed_kept c x r c' o : fine_item x -> feed_item c x = (r, c', o) -> Forall kept o.
  Proof.
    destruct x as [t e m| |]; cbn [fine_item feed_item]; [|intros _ E; injection E as <- <- <-; constructor..].
    intros (A & B) E. exact (message_kept _ _ _ _ _ _ _ A B E).
  Qed.
  Lemma loop_kept : forall items c p c' o, Forall fine_item items -> client_loop c items = (p, c', o) -> Forall kept o.
  Proof.
    induction items as [|x items IH]; intros c p c' o F H; cbn [client_loop] in H;
      destruct (ctx_poll c) as [[p1 c1] o1] eqn:P; pose proof (poll_kept _ _ _ _ P) as K1;
      destruct p1; try (injection H as <- <- <-; exact K1).
    inversion F; subst. destruct (feed_item c1 x) as [[r c2] o2] eqn:Fi. pose proof (feed_kept _ _ _ _ _ H2 Fi) as K2.
    destruct r; [injection H as <- <- <-; apply Forall_app; auto|].
    destruct (client_loop c2 items) as [[p3 c3] o3] eqn:L. injection H as <- <- <-. rewrite !Forall_app. eauto.
  Qed.
  Lemma client_kept items c p c' o : Forall fine_item items -> client_poll c items = (p, c', o) -> Forall kept o.
  Proof.
    destruct items as [|x items]; intros F H; cbn [client_poll] in H; [exact (loop_kept [] _ _ _ _ F H)|].
    inversion F; subst. destruct (feed_item c x) as [[r c2] o2] eqn:Fi. pose proof (feed_kept _ _ _ _ _ H2 Fi) as K2.
    destruct r; [injection H as <- <- <-; exact K2|].
    destruct (client_loop c2 items) as [[p3 c3] o3] eqn:L. injection H as <- <- <-. rewrite Forall_app. split; [exact K2|].
    exact (loop_kept _ _ _ _ _ H3 L).
  Qed.
  Lemma step_kept k e k' o : fine e -> conn_step k e = (k', o) -> Forall kept o.
  Proof.
    intros F H. unfold conn_step in H. destruct (k_result k); [injection H as <- <-; constructor|].
    destruct e as [items|t a b d| |sid te].
    - assert (Fi : Forall fine_item items). { apply Forall_forall. intros [t en m| |] Hi; cbn; auto. exact (F t en m Hi). }
      destruct (client_poll (k_ctx k) items) as [[p c1] o1] eqn:P. pose proof (client_kept _ _ _ _ _ Fi P) as K1.
      destruct p; injection H as <- <-; try exact K1. apply Forall_app. split; [exact K1|constructor; [exact Logic.I|constructor]].
    - destruct (is_closed (k_ctx k)); [injection H as <- <-; constructor|].
      destruct (time_event t (k_ctx k) a b d) as [[r c1] o1] eqn:T. injection H as <- <-.
      constructor; [exact Logic.I|]. exact (time_kept _ _ _ _ _ _ _ _ T F).
    - injection H as <- <-. constructor.
    - unfold lift_mgr in H. destruct (mgr_step (c_mgr (k_ctx k)) (MTransport sid te)). injection H as <- <-. apply kept_mgr.
  Qed.
  Lemma run_kept es : forall k k' o, Forall fine es -> conn_run k es = (k', o) -> Forall kept o.
  Proof.
    induction es as [|e es IH]; intros k k' o F H; cbn [conn_run] in H; [injection H as <- <-; constructor|].
    inversion F; subst. destruct (conn_step k e) as [k1 o1] eqn:S. destruct (conn_run k1 es) as [k2 o2] eqn:R.
    injection H as <- <-. apply Forall_app. split; [exact (step_kept _ _ _ _ H2 S)|eauto].
  Qed.
  Lemma all_kept t0 v2 es k h : connection t0 i v1 v2 es = (k, h) -> Forall fine es -> Forall kept h.
  Proof.
    unfold connection, conn_new. intros H F.
    assert (N0 : Forall kept (snd (ctx_new t0 i v1 v2))).
    { constructor; [|constructor]. right. left. unfold reg_msg. destruct (id_gateway i); reflexivity. }
    destruct (ctx_new t0 i v1 v2) as [c o]. cbn [snd] in N0.
    destruct (conn_run _ es) as [k' o'] eqn:R. injection H as <- <-. apply Forall_app. split; [exact N0|exact (run_kept _ _ _ _ F R)].
  Qed.
End Messages.

(** ** Both together *)
Section Reach.
  Variable hash : ident -> N.
  Variable t : table.
  Variable os : list top.
  Hypothesis K : consistent t.
  Hypothesis B : built_ops os.
  Hypothesis Ht : forall id s, stored t id = Some s -> plain s.
  Hypothesis Ho : forall now s, In (now, s) (adds os) -> plain s.
  Let P := moment hash t os.
  Let V := fun v => exists t', P t' /\ v = view_of t'.

  Lemma u16_lt n : u16 n < 2 ^ 16.
  Proof using. clear K B Ht Ho. apply N.mod_lt. discriminate. Qed.

  Lemma announced_tells i v1 G m x : wf_identity i -> V v1 -> proper i v1 V G m -> announced_as (cmsg_encode m) x -> tells hash t os x.
  Proof.
    intros (I1 & I2 & I3 & I4) (t1 & P1 & ->) Hm Hx.
    destruct Hm as [(v & id & (t' & P' & ->) & ->)|[->|[(e & id & m0 & cm & _ & _ & ->)|Hm]]].
    - destruct Hx as [(a & r & R & _)|(a & es & R & Hx)]; [apply read_register_type in R; [discriminate|reflexivity]|].
      destruct (visible_entries hash t os K B Ht Ho t' P') as [W F].
      destruct (update_recovered (tbl_visible t') (table_of_services (tbl_visible t')) (u16 id) (u16_lt id)
        (visible_ids hash t os K B t' P') W F (Permutation_refl _)) as (es' & R' & Pm).
      cbn [view_of v_visible] in R. rewrite R' in R. injection R as <- <-.
      apply (Permutation_in x Pm) in Hx. apply in_map_iff in Hx as (p & <- & Hp). exact (announce_tells hash t os K B t' p P' Hp).
    - destruct Hx as [(a & r & R & Hx)|(a & es & R & _)]; [|apply read_update_type in R; [discriminate|reflexivity]].
      destruct (visible_entries hash t os K B Ht Ho t1 P1) as [W F].
      assert (M : mk_register 0 (id_uuid i) (id_key i) (id_mac i) 65536 (id_gateway i) (table_of_services (tbl_visible t1)) (id_info i) =
        ROk (reg_msg i (view_of t1))) by (unfold reg_msg; destruct (id_gateway i); reflexivity).
      destruct (register_recovered 0 _ _ _ _ _ (tbl_visible t1) _ _ _ eq_refl I1 I2 I3 I4
        (visible_ids hash t os K B t1 P1) W F (Permutation_refl _) M) as (es' & R' & Pm).
      rewrite R' in R. injection R as <- <-. cbn [g_table] in Hx.
      apply (Permutation_in x Pm) in Hx. apply in_map_iff in Hx as (p & <- & Hp). exact (announce_tells hash t os K B t1 p P1 Hp).
    - exfalso. destruct Hx as [(a & r & R & _)|(a & es & R & _)];
        [apply read_register_type in R|apply read_update_type in R]; try discriminate; reflexivity.
    - exfalso. destruct Hx as [(a & r & R & _)|(a & es & R & _)];
        [apply read_register_type in R|apply read_update_type in R]; lia.
  Qed.

  (** What a CONNECT opens is the identity behind the ID. *)
  Lemma tells_same t' svc s a x : P t' -> tbl_get t' svc = Some s -> s_addr s = Some a -> tells hash t os x -> e_id x = svc ->
    e_type x = svc_code (s_type s) /\ e_mac x = (match s_mac s with Some m => m | None => 0 end) /\ e_port x = sa_port a /\
    e_path x = (match s_path s with Some p => p | None => [] end).
  Proof using K B. clear Ht Ho.
    intros Pt Hg Ha (t2 & s2 & P2 & S2 & C2 & E1 & E2 & E3 & E4) Ex. subst svc.
    assert (S : stored t' (e_id x) = Some s).
    { unfold tbl_get in Hg. unfold stored. destruct (alookup (e_id x) (t_map t')) as [e|]; [|discriminate].
      destruct (_ || _); [|discriminate]. exact Hg. }
    pose proof (moments_agree hash t os K B _ _ _ _ _ Pt P2 S S2) as E.
    rewrite E1, E2, E3, E4. unfold to_ident in E. injection E as A1 A2 A3 A4. rewrite A1, A2, A4. repeat split.
    unfold svc_port in A3. rewrite Ha in A3. cbn in A3. destruct (s_addr s2) as [a2|]; [|discriminate]. cbn in A3. congruence.
  Qed.

  Definition report_env (en : env) (b : bytes) : Prop :=
    (exists tb, P tb /\ forall k, tbl_get_id tb k = ROk (e_get_id en k)) /\
    Forall (fun s => wf_service s /\ nul_free_path s /\ svc_is_control s = false) (e_services en) /\
    nlen (e_hosts en) < 2 ^ 32 /\ Forall wf_host (e_hosts en) /\ Forall (fun h => nlen (hr_ports h) < 65536) (e_hosts en) /\
    wf_bytes b.

  Lemma from_bytes_id b m : wf_bytes b -> cmsg_from_bytes b = ROk m -> cm_id m < 2 ^ 16.
  Proof using. clear K B Ht Ho.
    intros W H. unfold cmsg_from_bytes in H. destruct (Nat.ltb_spec (length b) 4) as [|L]; [discriminate|].
    destruct b as [|x [|y [|z [|w r]]]]; cbn [length] in L; try lia. cbv zeta in H.
    destruct (decode_body _ _); try discriminate. apply (f_equal (fun z => match z with ROk m => cm_id m | _ => 0 end)) in H.
    cbn [cm_id firstn field skipn] in H. rewrite <- H. inversion W as [|? ? W1 W2]; inversion W2; subst.
    unfold of_be. cbn [firstn skipn fold_left]. change (2 ^ 16) with 65536. lia.
  Qed.

  Lemma reported_tells i v1 m x : proper i v1 V report_env m -> reported_as (cmsg_encode m) x -> tells hash t os x.
  Proof using K B. clear Ht Ho.
    intros Hm (r & R & Hx).
    destruct Hm as [(v & id & _ & ->)|[->|[(e & id & m0 & cm & Ge & D & ->)|Hm]]].
    - apply read_report_type in R; [discriminate|reflexivity].
    - apply read_report_type in R; [discriminate|reflexivity].
    - destruct Ge as ((tb & Pb & Gb) & Fs & Hh & Fh & Fp & W).
      pose proof (moment_consistent hash t os K B tb Pb) as C.
      assert (L : forall s id', svc_is_control s = false -> e_get_id e (to_ident s) = Some id' ->
        exists s', stored tb id' = Some s' /\ to_ident s' = to_ident s).
      { intros s id' _ E. specialize (Gb (to_ident s)). rewrite E in Gb. unfold tbl_get_id in Gb.
        destruct (ilookup (to_ident s) (t_idents tb)) as [j|] eqn:J; [|discriminate].
        destruct (k_ident tb C _ _ J) as (en & A1 & A2). rewrite A1 in Gb. destruct (_ || _); [|discriminate].
        injection Gb as ->. exists (n_svc en). unfold stored. rewrite A1. auto. }
      destruct (report_recovered (u16 id) (cm_id cm) (e_hosts e) (e_services e) (e_get_id e)
        (scan_report_services (e_get_id e) (e_services e)) (u16_lt id) (from_bytes_id _ _ W D) Hh Fh Fp)
        as (es & R' & _ & Hs & _).
      + eapply Forall_impl; [|exact Fs]. cbv beta. tauto.
      + intros s j Hj E. rewrite Forall_forall in Fs. destruct (Fs s Hj) as (_ & _ & Cs).
        destruct (L _ _ Cs E) as (s' & S1 & S2). apply (stored_id hash t os K B tb j s' Pb S1).
        rewrite (same_control _ _ S2). exact Cs.
      + apply Permutation_refl.
      + rewrite R' in R. injection R as <-. cbn [rp_services] in Hx. destruct (Hs _ Hx) as (s & Hi & E & Ex).
        rewrite Forall_forall in Fs. destruct (Fs s Hi) as (_ & _ & Cs). destruct (L _ _ Cs E) as (s' & S1 & S2).
        exists tb, s'. split; [exact Pb|]. split; [exact S1|]. split; [rewrite (same_control _ _ S2); exact Cs|].
        rewrite Ex. cbn [announce e_type e_mac e_port e_path]. unfold to_ident, svc_port in S2. injection S2 as A1 A2 A3 A4.
        rewrite A1, A2, A4. repeat split. destruct (s_addr s), (s_addr s'); cbn in A3; congruence.
    - exfalso. apply read_report_type in R; lia.
  Qed.
End Reach.

Lemma connect_reaches hash t os t0 i v1 v2 es k h h1 h2 sid ty mac a :
  consistent t -> built_ops os -> (forall id s, stored t id = Some s -> plain s) -> (forall now s, In (now, s) (adds os) -> plain s) ->
  wf_identity i -> (exists t1, moment hash t os t1 /\ v1 = view_of t1) -> Forall (looks_at (moment hash t os)) es ->
  connection t0 i v1 v2 es = (k, h) -> bytes_received h -> h = h1 ++ XMgr (OOpen sid ty mac a) :: h2 ->
  exists h0 e m id svc, h1 = h0 ++ [XRecv e m] /\
    server_says m {| cm_id := id; cm_type := 13; cm_body := BConnect svc sid |} /\
    forall x, learnt announced_as h x -> e_id x = svc -> e_type x = svc_code ty /\ e_mac x = mac /\ e_port x = sa_port a.
Proof.
  intros K B Ht Ho Hi H1 Fe H Hb Eh.
  destruct (open_origin _ _ _ _ _ _ _ _ _ _ _ _ _ H Eh Hb) as (h0 & e & m & id & svc & s & E1 & _ & Sm & Hg & Ha & -> & -> & _).
  exists h0, e, m, id, svc. split; [exact E1|]. split; [exact Sm|]. intros x (tq & mq & Hq & Hx) Ex.
  assert (Kp : Forall (kept i v1 (fun v => exists t', moment hash t os t' /\ v = view_of t') (fun _ _ => True)) h).
  { eapply all_kept; [exact H|]. eapply Forall_impl; [|exact Fe]. intros [items|tt a0 b0 d0| |? ?]; cbn; auto.
    - intros L t1 en m1 Hm. split; [exact (L t1 en m1 Hm)|exact Logic.I].
    - tauto. }
  rewrite Forall_forall in Kp. pose proof (Kp _ Hq) as Kq. cbn [kept] in Kq.
  assert (Ke : kept i v1 (fun v => exists t', moment hash t os t' /\ v = view_of t') (fun _ _ => True) (XRecv e m)).
  { apply Kp. rewrite Eh, E1. apply in_or_app. left. apply in_or_app. right. now left. }
  destruct Ke as (te & Pe & Ee). rewrite Ee in Hg. cbn [view_of v_get] in Hg.
  pose proof (announced_tells hash t os K B Ht Ho _ _ _ _ _ Hi H1 Kq Hx) as T.
  destruct (tells_same hash t os K B _ _ _ _ _ Pe Hg Ha T Ex) as (A1 & A2 & A3 & _). auto.
Qed.

Lemma report_reaches hash t os t0 i v1 v2 es k h h1 h2 sid ty mac a :
  consistent t -> built_ops os -> Forall (looks_at (moment hash t os)) es -> Forall (reports_of (moment hash t os)) es ->
  connection t0 i v1 v2 es = (k, h) -> bytes_received h -> h = h1 ++ XMgr (OOpen sid ty mac a) :: h2 ->
  exists h0 e m id svc, h1 = h0 ++ [XRecv e m] /\
    server_says m {| cm_id := id; cm_type := 13; cm_body := BConnect svc sid |} /\
    forall x, learnt reported_as h x -> e_id x = svc -> e_type x = svc_code ty /\ e_mac x = mac /\ e_port x = sa_port a.
Proof.
  intros K B Fe Fr H Hb Eh.
  destruct (open_origin _ _ _ _ _ _ _ _ _ _ _ _ _ H Eh Hb) as (h0 & e & m & id & svc & s & E1 & _ & Sm & Hg & Ha & -> & -> & _).
  exists h0, e, m, id, svc. split; [exact E1|]. split; [exact Sm|]. intros x (tq & mq & Hq & Hx) Ex.
  assert (Kp : Forall (kept i v1 (fun v => exists t', moment hash t os t' /\ v = view_of t') (report_env hash t os)) h).
  { eapply all_kept; [exact H|]. rewrite Forall_forall in *. intros ev He. specialize (Fe ev He). specialize (Fr ev He).
    destruct ev as [items|tt a0 b0 d0| |? ?]; cbn in *; auto.
    - intros t1 en m1 Hm. split; [exact (Fe t1 en m1 Hm)|exact (Fr t1 en m1 Hm)].
    - tauto. }
  rewrite Forall_forall in Kp. pose proof (Kp _ Hq) as Kq. cbn [kept] in Kq.
  assert (Ke : kept i v1 (fun v => exists t', moment hash t os t' /\ v = view_of t') (report_env hash t os) (XRecv e m)).
  { apply Kp. rewrite Eh, E1. apply in_or_app. left. apply in_or_app. right. now left. }
  destruct Ke as (te & Pe & Ee). rewrite Ee in Hg. cbn [view_of v_get] in Hg.
  pose proof (reported_tells hash t os K B _ _ _ _ Kq Hx) as T.
  destruct (tells_same hash t os K B _ _ _ _ _ Pe Hg Ha T Ex) as (A1 & A2 & A3 & _). auto.
Qed.

Lemma connect_newest hash t os t0 i v1 v2 es k h h1 h2 sid ty mac a :
  consistent t -> built_ops os -> Forall (looks_at (moment hash t os)) es ->
  connection t0 i v1 v2 es = (k, h) -> bytes_received h -> h = h1 ++ XMgr (OOpen sid ty mac a) :: h2 ->
  exists h0 e m id svc os1 os2 now s, h1 = h0 ++ [XRecv e m] /\
    server_says m {| cm_id := id; cm_type := 13; cm_body := BConnect svc sid |} /\
    os = os1 ++ os2 /\ tbl_run hash t os1 = ROk now /\ e_table e = view_of now /\
    last_service (to_ident s) (adds os1) (stored t svc) = Some s /\ s_addr s = Some a /\ s_type s = ty.
Proof.
  intros K B Fe H Hb Eh.
  destruct (open_origin _ _ _ _ _ _ _ _ _ _ _ _ _ H Eh Hb) as (h0 & e & m & id & svc & s & E1 & _ & Sm & Hg & Ha & -> & -> & _).
  assert (Kp : Forall (kept i v1 (fun v => exists t', moment hash t os t' /\ v = view_of t') (fun _ _ => True)) h).
  { eapply all_kept; [exact H|]. eapply Forall_impl; [|exact Fe]. intros [items|tt a0 b0 d0| |? ?]; cbn; auto.
    - intros L t1 en m1 Hm. split; [exact (L t1 en m1 Hm)|exact Logic.I].
    - tauto. }
  rewrite Forall_forall in Kp.
  assert (Ke : kept i v1 (fun v => exists t', moment hash t os t' /\ v = view_of t') (fun _ _ => True) (XRecv e m)).
  { apply Kp. rewrite Eh, E1. apply in_or_app. left. apply in_or_app. right. now left. }
  destruct Ke as (te & Pe & Ee). destruct (moment_ok hash t os K B te Pe) as (os1 & os2 & Eo & R & B1 & _ & _).
  exists h0, e, m, id, svc, os1, os2, te, s. split; [exact E1|]. split; [exact Sm|]. split; [exact Eo|]. split; [exact R|]. split; [exact Ee|].
  rewrite Ee in Hg. cbn [view_of v_get] in Hg.
  assert (S : stored te svc = Some s).
  { unfold tbl_get in Hg. unfold stored. destruct (alookup svc (t_map te)); [|discriminate]. destruct (_ || _); [|discriminate]. exact Hg. }
  split; [|auto]. rewrite <- S. symmetry. apply (run_last hash os1 t te K B1 R). exists s. auto.
Qed.
