(** Proof of C158. *)
From Coq Require Import NArith ZArith List Bool Lia ZifyBool ZifyNat ZifyN.
From Verif.Model Require Import Bytes Frame Service Control Alist Session Manager Client.
From Verif.Spec Require Import ManagerSpec ClientSpec WireSpec SessionSpec FairSpec WindowSpec.
From Verif.Proofs Require Import BytesFacts AlistFacts ManagerProofs ManagerPropsPf ClientInv ClientPropsPf ClientPropsPf2 SessionProofs ProgressPf ProgressLift FairPf EndToEnd WindowPf.
From Verif.Proofs Require WireFinal.
Import ListNotations.
Local Open Scope N_scope.

Definition noack (m : amsg) : Prop := ack_in m = None.

(** ** DATA_ACK messages of the client *)
Lemma other_noack c : cm_type c < 256 -> cm_type c <> 12 -> noack (amsg_of_cmsg c).
Proof.
  intros L D. unfold noack, ack_in, amsg_of_cmsg, amsg_new, cmsg_encode. cbn [m_service m_payload to_be app]. rewrite N.eqb_refl.
  destruct (body_encode (cm_body c)) as [|? l]; [reflexivity|]. do 7 (destruct l as [|? l]; [reflexivity|]). destruct l; [|reflexivity].
  rewrite (N.mod_small _ _ L). destruct (N.eqb_spec (cm_type c) 12); [contradiction|]. now rewrite andb_false_r.
Qed.
Lemma big4_to_be n : n < 2 ^ 32 -> big4 ((n / 256 / 256 / 256) mod 256) ((n / 256 / 256) mod 256) ((n / 256) mod 256) (n mod 256) = n.
Proof. intros H. exact (of_be_to_be_small 4 n H). Qed.
Lemma ack_back id s n : s < 2 ^ 24 -> n < 2 ^ 32 -> ack_in (amsg_of_cmsg (mk_data_ack id s n)) = Some (s, n).
Proof.
  intros S L. unfold ack_in, amsg_of_cmsg, amsg_new, cmsg_encode, mk_data_ack. cbn [m_service m_payload cm_id cm_type cm_body body_encode to_be app].
  rewrite N.eqb_refl, (short_land s S). change (12 / 256 mod 256 =? 0) with true. change (12 mod 256 =? 12) with true. cbn [andb].
  rewrite (big4_to_be s) by lia. rewrite (big4_to_be n L). reflexivity.
Qed.

Lemma step_acks s e s' o : sess_step s e = (s', o) -> match e with ETake _ => True | _ => acked_out o = 0 end.
Proof.
  intros H. destruct e as [n|p|f| | | |r w| |]; cbn [sess_step] in H; try exact I.
  - injection H as <- <-. reflexivity.
  - unfold sess_push in H. destruct (s_closed s) eqn:C; [injection H as <- <-; reflexivity|].
    destruct (s_outcap s <? nlen p); injection H as <- <-; reflexivity.
  - injection H as <- <-. reflexivity.
  - destruct (s_phase s); injection H as <- <-; reflexivity.
  - destruct (s_phase s); injection H as <- <-; reflexivity.
  - unfold transport_poll in H. destruct (s_phase s); try (injection H as <- <-; reflexivity).
    destruct (s_closed _); [injection H as <- <-; reflexivity|].
    destruct (poll_read_input _ r) as [[x1 s1] o1] eqn:R. destruct (poll_write_output s1 w) as [[x2 s2] o2] eqn:Wr.
    injection H as <- <-. rewrite acked_out_app.
    assert (acked_out o1 = 0) as ->.
    { unfold poll_read_input in R. destruct (s_closed _); [injection R as <- <- <-; reflexivity|].
      destruct (_ <=? _); [injection R as <- <- <-; reflexivity|].
      destruct r as [|[|b0 b]|]; injection R as <- <- <-; reflexivity. }
    unfold poll_write_output in Wr. destruct (s_output s1).
    + destruct (s_closed s1); injection Wr as <- <- <-; reflexivity.
    + destruct w; injection Wr as <- <- <-; reflexivity.
  - destruct (s_wait_rd s); injection H as <- <-; reflexivity.
  - destruct (s_wait_wr s); injection H as <- <-; reflexivity.
Qed.

(** ** Both counts agree *)
Definition acksent_step (sid acc : N) (x : cobs) : N :=
  match x with
  | XMgr (OOpen s _ _ _) => if s =? sid then 0 else acc
  | XMgr (OSess s _ o) => if s =? sid then acc + acked_out o else acc
  | _ => acc
  end.
Definition agree (o : list cobs) : Prop := forall sid acc, fold_left (confirmed_step sid) o acc = fold_left (acksent_step sid) o acc.
Definition unmoved (x : cobs) : Prop :=
  match x with XMgr (OSess _ _ o) => acked_out o = 0 | XSent m => noack m | _ => True end.
Lemma unmoved_agree o : Forall unmoved o -> agree o.
Proof.
  induction 1 as [|x o X F IH]; intros sid acc; [reflexivity|]. cbn [fold_left].
  assert (confirmed_step sid acc x = acksent_step sid acc x) as ->; [|apply IH].
  destruct x as [| | |y| |m]; try reflexivity; cbn [unmoved confirmed_step acksent_step] in *; [|unfold noack in X; rewrite X; reflexivity].
  - destruct y as [s t mac a|s ev oo|s|m|w m]; try reflexivity. rewrite X, N.add_0_r. destruct (s =? sid); reflexivity.
Qed.
Lemma agree_app o1 o2 : agree o1 -> agree o2 -> agree (o1 ++ o2).
Proof. intros A B sid acc. rewrite !fold_left_app, A. apply B. Qed.

Record clean (c : ctx) : Prop := { cl_queue : Forall noack (g_queue (c_mgr c)); cl_msgs : Forall noack (c_messages c); cl_lab : labelled (c_mgr c) }.
Definition moves_on (c c' : ctx) (o : list cobs) : Prop := clean c -> okh o -> clean c' /\ agree o.

Lemma okh_right h o : okh (h ++ o) -> okh o.
Proof.
  intros [A B]. split.
  - intros e m s Hi. apply (A e m s). apply in_or_app. auto.
  - intros s t mac a Hi. apply (B s t mac a). apply in_or_app. auto.
Qed.
Lemma moves_app c c1 c2 o1 o2 : moves_on c c1 o1 -> moves_on c1 c2 o2 -> moves_on c c2 (o1 ++ o2).
Proof.
  intros A B C O. destruct (A C (okh_app _ _ O)) as [C1 G1]. destruct (B C1 (okh_right _ _ O)) as [C2 G2]. split; [exact C2|]. now apply agree_app.
Qed.
Lemma moves_same c c' o : g_queue (c_mgr c') = g_queue (c_mgr c) -> c_messages c' = c_messages c -> g_sessions (c_mgr c') = g_sessions (c_mgr c) ->
  Forall unmoved o -> moves_on c c' o.
Proof.
  intros Q M S F [A B L] _. split; [|now apply unmoved_agree]. split; [now rewrite Q|now rewrite M|]. intros k s. unfold find_sess. rewrite S. apply L.
Qed.

Lemma moves_via a b c d o : moves_on a b o -> c_mgr a = c_mgr c -> c_messages a = c_messages c -> c_mgr d = c_mgr b -> c_messages d = c_messages b -> moves_on c d o.
Proof.
  intros M E1 E2 E3 E4 [A B L] O. rewrite <- E1 in A, L. rewrite <- E2 in B. destruct (M (Build_clean _ A B L) O) as [[A' B' L'] G].
  split; [|exact G]. split; rewrite ?E3, ?E4; assumption.
Qed.

Lemma hup_noack g k code m g' : create_hup g k code = (m, g') -> noack m /\ g_queue g' = g_queue g /\ g_sessions g' = g_sessions g.
Proof. unfold create_hup. destruct (next_id _). intros [= <- <-]. split; [|split; reflexivity]. apply other_noack; cbn; lia. Qed.

Lemma loop_agree : forall n g r g' o, labelled g -> poll_loop n g = (r, g', o) -> agree (map XMgr o ++ handed o).
Proof.
  induction n as [|n IH]; intros g r g' o L H; cbn [poll_loop] in H.
  { injection H as <- <- <-. intros sid acc. reflexivity. }
  destruct (g_order g) as [|k rest]; [eapply IH; eauto|].
  destruct (find_sess (set_order g rest) k) as [s|] eqn:F; [|eapply IH; [|exact H]; exact L].
  change (find_sess (set_order g rest) k) with (find_sess g k) in F.
  cbn [set_order g_factory] in H.
  destruct (sess_take (g_factory g) s) as [[[t s'] f'] so] eqn:T.
  assert (Hs : sess_step s (ETake (g_factory g)) = (s', so)) by (cbn [sess_step]; now rewrite T).
  pose proof (take_shape _ _ _ _ _ _ T) as Sh. destruct (L _ _ F) as (L1 & L2 & L3).
  destruct t as [m| | |].
  - injection H as <- <- <-. intros sid acc. unfold handed. cbn [map polled_msg app fold_left confirmed_step acksent_step].
    pose proof (take_ok 0 s (g_factory g) EClose) as So. rewrite T in So. destruct So as [_ _ _ _ _ _ So].
    unfold sess_take in T. destruct (0 <? s_written s).
    + destruct (next_id _) as [i f2]. injection T as <- <- <- <-. rewrite ack_back; [|rewrite L1; exact L3|unfold u32; lia].
      rewrite L1. cbn [acked_out fold_right ack_of mk_data_ack cm_body]. rewrite N.add_0_r. reflexivity.
    + destruct (firstn _ _) as [|d0 d].
      * destruct (s_closed _); [destruct (s_error _)|]; discriminate T.
      * injection T as <- _ _ <-. inversion So as [|? ? Hg Hz]; subst. destruct Hg as (_ & E1 & _).
        unfold ack_in. rewrite E1. apply N.eqb_neq in L2. rewrite L2. cbn [acked_out fold_right]. rewrite !N.add_0_r. destruct (_ =? sid); reflexivity.
  - destruct (create_hup _ k EC_CONNECTION_ERROR) as [hm g3] eqn:Hh. injection H as <- <- <-. apply unmoved_agree. subst so.
    unfold handed. cbn [map polled_msg app]. repeat constructor. exact (proj1 (hup_noack _ _ _ _ _ Hh)).
  - destruct (create_hup _ k EC_NO_ERROR) as [hm g3] eqn:Hh. injection H as <- <- <-. apply unmoved_agree. subst so.
    unfold handed. cbn [map polled_msg app]. repeat constructor. exact (proj1 (hup_noack _ _ _ _ _ Hh)).
  - match type of H with (match poll_loop n ?x with _ => _ end) = _ => set (g2 := x) in H; destruct (poll_loop n g2) as [[r3 g3] os] eqn:P end.
    injection H as <- <- <-. assert (Lg : labelled g2) by exact (labelled_set _ _ _ _ _ _ F Hs L). subst so.
    unfold handed. cbn [map polled_msg]. change (match polled_msg os with Some m => [XSent m] | None => [] end) with (handed os). apply (agree_app [XMgr (OSess k (ETake (g_factory g)) [])] (map XMgr os ++ handed os)); [apply unmoved_agree; repeat constructor|].
    exact (IH _ _ _ _ Lg P).
Qed.

Definition out_of (p : polled) : list cobs := match p with PReady m => [XSent m] | _ => [] end.

Lemma moves_poll c p c' o : ctx_poll c = (p, c', o) -> moves_on c c' (o ++ out_of p).
Proof.
  unfold ctx_poll. destruct (is_closed c); [intros [= <- <- <-]; apply moves_same; try reflexivity; constructor|].
  destruct (c_messages c) as [|m q] eqn:M.
  2: { intros [= <- <- <-] [A B L] O. rewrite M in B. inversion B as [|? ? B1 B2]; subst. split; [split; assumption|]. apply unmoved_agree. repeat constructor. exact B1. }
  destruct (mgr_poll (c_mgr c)) as [g og] eqn:E. intros H [A B L] O.
  assert (X : Forall noack (g_queue g) /\ labelled g /\ agree (map XMgr og ++ handed og)).
  { unfold mgr_poll in E. destruct (g_queue (c_mgr c)) as [|m q] eqn:Q.
    - destruct (poll_loop _ (c_mgr c)) as [[r g1] oo] eqn:P. pose proof (loop_grown _ _ [] _ _ _ P) as G. pose proof (loop_agree _ _ _ _ _ L P) as AG.
      pose proof (gr_queue _ _ _ _ G) as GQ. pose proof (gr_lab _ _ _ _ G L) as GL.
      destruct r; injection E as <- <-; (split; [cbn; rewrite GQ, Q; constructor|split; [exact GL|exact AG]]).
    - injection E as <- <-. inversion A as [|? ? A1 A2]; subst. split; [exact A2|]. split; [exact L|]. apply unmoved_agree. repeat constructor. exact A1. }
  cbv zeta in H. destruct X as (X1 & X2 & X3). unfold handed in X3. destruct (polled_msg og); injection H as <- <- <-; (split; [|exact X3]); (split; [exact X1|cbn; rewrite M; constructor|exact X2]).
Qed.

Lemma moves_send t c m : cm_type m < 256 -> cm_type m <> 12 -> moves_on c (fst (send_control t c m)) (snd (send_control t c m)).
Proof.
  intros T D [A B L] _. split; [|apply unmoved_agree; repeat constructor]. unfold send_control. cbn [fst].
  assert (X : Forall noack (c_messages c ++ [amsg_of_cmsg m])) by (apply Forall_app; split; [exact B|repeat constructor; now apply other_noack]).
  destruct (c_task _); split; assumption.
Qed.
Lemma moves_next c : moves_on c (snd (c_next_id c)) [].
Proof. unfold c_next_id. destruct (next_id _). apply moves_same; try reflexivity. constructor. Qed.

Lemma moves_time t c v0 v1 v2 r c' o : time_event t c v0 v1 v2 = (r, c', o) -> moves_on c c' o.
Proof.
  intros H. unfold time_event in H. match type of H with match ?x with _ => _ end = _ => destruct x as [c2 o2] eqn:X end. injection H as _ <- <-.
  destruct (c_established c); [|injection X as <- <-; apply moves_same; try reflexivity; constructor].
  match type of X with match ?x with _ => _ end = _ => destruct x as [c3 o3] eqn:Y end.
  match type of X with match ?x with _ => _ end = _ => destruct x as [c4 o4] eqn:Z end. injection X as <- <-.
  apply (moves_app c c3).
  - destruct (PING_PERIOD <=? _)%Z; [|injection Y as <- <-; apply moves_same; try reflexivity; constructor]. unfold send_ping, send_unconfirmed in Y.
    pose proof (moves_next c) as N. destruct (c_next_id c) as [i c1]. cbn [snd] in N.
    match type of Y with context [send_control t ?d ?m] => pose proof (moves_send t d m ltac:(cbn; lia) ltac:(cbn; lia)) as S; destruct (send_control t d m) as [c5 o5] end.
    injection Y as <- <-. cbn [fst snd] in S. apply (moves_app c c1 _ [] o5); [exact N|]. apply (moves_via _ _ _ _ _ S); reflexivity.
  - destruct (UPDATE_CHECK_PERIOD <=? _)%Z; [|injection Z as <- <-; apply moves_same; try reflexivity; constructor]. unfold check_for_updates, send_update in Z.
    destruct (c_version c3 =? v_version v0); [injection Z as <- <-;  apply moves_same; try reflexivity; constructor|].
    pose proof (moves_next c3) as N. destruct (c_next_id c3) as [i c1]. cbn [snd] in N.
    match type of Z with context [send_control t ?d ?m] => pose proof (moves_send t d m ltac:(cbn; lia) ltac:(cbn; lia)) as S; destruct (send_control t d m) as [c5 o5] end.
    injection Z as <- <-. cbn [fst snd] in S. apply (moves_app c3 c1 _ [] o5); [exact N|]. apply (moves_via _ _ _ _ _ S); reflexivity.
Qed.

Lemma moves_sess c g k s e s' o pre : c_mgr c = g -> find_sess g k = Some s -> sess_step s e = (s', o) -> (match e with ETake _ => False | _ => True end) ->
  Forall unmoved pre -> moves_on c (set_mgr c (set_sess g k s')) (pre ++ [XMgr (OSess k e o)]).
Proof.
  intros <- F Hs NT P [A B L] _. split.
  - split; [exact A|exact B|exact (labelled_set _ _ _ _ _ _ F Hs L)].
  - apply unmoved_agree. apply Forall_app. split; [exact P|]. repeat constructor. pose proof (step_acks _ _ _ _ Hs) as X. destruct e; try exact X. destruct NT.
Qed.

Lemma moves_hup c k code m g1 pre : create_hup (c_mgr c) k code = (m, g1) -> Forall unmoved pre ->
  moves_on c (set_mgr c (wake_task (set_queue g1 (g_queue g1 ++ [m])))) (pre ++ [XMgr (OQueued m)]).
Proof.
  intros H P [A B L] _. destruct (hup_noack _ _ _ _ _ H) as (H1 & H2 & H3). split.
  - split; [|exact B|].
    + assert (Forall noack (g_queue g1 ++ [m])) by (rewrite H2; apply Forall_app; split; [exact A|repeat constructor; exact H1]).
      unfold wake_task. cbn [c_mgr set_mgr]. destruct (g_task _); assumption.
    + intros x s. cbn [c_mgr set_mgr]. rewrite find_wake. change (find_sess (set_queue ?a ?b) x) with (find_sess a x). unfold find_sess. rewrite H3. apply L.
  - apply unmoved_agree. apply Forall_app. split; [exact P|repeat constructor].
Qed.

Lemma moves_control t e c m cm c' o : process_control t e c cm = (None, c', o) -> moves_on c c' (XRecv e m :: o).
Proof.
  intros H.
  assert (ES : forall x : ctx * list cobs, moves_on c (fst x) (XRecv e m :: snd x) ->
     (if c_established c then (None, fst x, snd x) else (Some OtherError, c, [])) = (None, c', o) -> moves_on c c' (XRecv e m :: o)).
  { intros x X Y. destruct (c_established c); [|discriminate Y]. injection Y as <- <-. exact X. }
  assert (RC : moves_on c c [XRecv e m]) by (apply moves_same; try reflexivity; repeat constructor).
  assert (SC : forall tt d mm, moves_on c d [XRecv e m] -> cm_type mm < 256 -> cm_type mm <> 12 ->
    moves_on c (fst (send_control tt d mm)) (XRecv e m :: snd (send_control tt d mm))).
  { intros tt d mm D A B. apply (moves_app c d _ [XRecv e m]); [exact D|]. now apply moves_send. }
  assert (SM : forall d oo, g_queue (c_mgr d) = g_queue (c_mgr c) -> c_messages d = c_messages c -> g_sessions (c_mgr d) = g_sessions (c_mgr c) ->
    Forall unmoved oo -> moves_on c d (XRecv e m :: oo)).
  { intros d oo A B C D. apply moves_same; auto. constructor; [exact Logic.I|exact D]. }
  unfold process_control in H. cbv zeta in H. destruct (message_type (cm_type cm)) eqn:T; destruct (cm_body cm) eqn:B; try discriminate H;
    try (refine (ES _ _ H); apply SC; [exact RC|cbn; lia|cbn; lia]);
    try (match type of H with context [XCmd ?x] => refine (ES (c, [XCmd x]) _ H); apply SM; try reflexivity; repeat constructor end);
    try (refine (ES (_, _) _ H); apply SM; [| | |constructor]; cbn [fst]; match goal with |- context [if ?b then _ else _] => destruct b end; reflexivity);
    try (assert (NX : moves_on c (snd (c_next_id c)) [XRecv e m]) by (unfold c_next_id; destruct (next_id _); apply SM; try reflexivity; constructor);
         destruct (c_next_id c) as [i1 c1]; cbn [snd] in NX; refine (ES _ _ H); apply SC; [exact NX|cbn; lia|cbn; lia]).
  - destruct (process_ack e c (cm_id cm) err) as [r1 c1] eqn:P. injection H as -> <- <-.
    unfold process_ack, handshake_ack in P. repeat match type of P with context [match ?x with _ => _ end] => destruct x end;
      first [discriminate P|injection P as <-; apply SM; try reflexivity; constructor].
  - refine (ES _ _ H). unfold mgr_close. destruct (find_sess (c_mgr c) session_id) as [x|] eqn:Ex; [|apply SM; try reflexivity; constructor].
    destruct (sess_step x EClose) as [x' oo] eqn:Hs. cbn [lift_mgr fst snd map]. intros [A B0 L] _. split.
    + split; [exact A|exact B0|]. apply (labelled_remove (c_mgr c) session_id L). intros sid. exact (find_remove (c_mgr c) session_id sid).
    + apply unmoved_agree. repeat constructor. exact (step_acks _ _ _ _ Hs).
  - refine (ES _ _ H). unfold mgr_data_ack. destruct (find_sess (c_mgr c) session_id) as [x|] eqn:Ex; [|apply SM; try reflexivity; constructor].
    destruct (sess_step x (EDataAck length)) as [x' oo] eqn:Hs. cbn [lift_mgr fst snd map].
    apply (moves_sess c _ session_id x _ x' oo [XRecv e m] eq_refl Ex Hs); [exact Logic.I|repeat constructor].
  - refine (ES _ _ H). unfold mgr_connect. destruct (connect_inner _ _ _ _) as [[[ty mac] a]|] eqn:Ci.
    + cbv zeta. cbn [lift_mgr fst snd map]. intros [A B0 L] [O1 O2]. split; [|apply unmoved_agree; repeat constructor]. split; [|exact B0|].
      * cbn [set_mgr c_mgr]. unfold set_sess, set_sessions, wake_task. cbn. destruct (g_task (c_mgr c)); exact A.
      * intros k s. cbn [set_mgr c_mgr]. rewrite find_set, find_wake. change (find_sess (set_order ?g ?l) k) with (find_sess g k).
        destruct (N.eqb_spec k session_id) as [->|]; [|apply L].
        intros Es. injection Es as <-. split; [reflexivity|]. cbn [with_mgr sess_new s_service].
        unfold connect_inner in Ci. destruct (find_sess _ _); [discriminate|].
        destruct (v_get (e_table e) service_id) as [sv|] eqn:Gt; [|discriminate].
        destruct (s_addr sv) as [ad|] eqn:Sa; [|discriminate]. split.
        -- intros ->. rewrite (O1 e m sv) in Sa; [discriminate| |exact Gt]. left. reflexivity.
        -- apply (O2 session_id ty mac a). right. left. reflexivity.
    + destruct (create_hup (c_mgr c) session_id EC_CONNECTION_ERROR) as [mm g1] eqn:CH. cbn [lift_mgr fst snd map].
      apply (moves_hup c _ _ _ _ [XRecv e m] CH). repeat constructor.
Qed.

Lemma moves_message t e c m c' o : process_message t e c m = (None, c', o) -> moves_on c c' o.
Proof.
  unfold process_message. destruct (is_closed c); [intros [= <- <-]; apply moves_same; try reflexivity; constructor|].
  destruct (N.eqb_spec (m_service m) 0) as [S0|S0].
  - destruct (cmsg_from_bytes (m_payload m)) as [cm| |] eqn:F; [|intros H; discriminate H|intros H; discriminate H].
    destruct (process_control t e c cm) as [[r c1] o1] eqn:P. intros [= -> <- <-]. exact (moves_control t e c m cm c1 o1 P).
  - destruct (c_established c); [|intros H; discriminate H]. unfold mgr_send. destruct (find_sess (c_mgr c) (m_session m)) as [x|] eqn:Ex.
    + destruct (sess_step x _) as [x' oo] eqn:Hs. cbn [lift_mgr map]. intros [= <- <-].
      apply (moves_sess c _ _ x _ x' oo [XRecv e m] eq_refl Ex Hs); [exact Logic.I|repeat constructor].
    + destruct (create_hup _ _ _) as [mm g1] eqn:CH. cbn [lift_mgr map]. intros [= <- <-]. apply (moves_hup c _ _ _ _ [XRecv e m] CH). repeat constructor.
Qed.

Lemma moves_feed c i c' o : feed_item c i = (None, c', o) -> moves_on c c' o.
Proof.
  destruct i as [t e m| |]; cbn [feed_item]; [apply moves_message|intros H; discriminate H|].
  intros [= <- <-]. apply moves_same; try reflexivity. constructor.
Qed.

Lemma moves_loop items : forall c p c' o, client_loop c items = (p, c', o) -> goes_on p -> moves_on c c' (o ++ out_of p).
Proof.
  induction items as [|i items IH]; intros c p c' o H G; cbn [client_loop] in H; destruct (ctx_poll c) as [[p1 c1] o1] eqn:E.
  - destruct p1; injection H as <- <- <-; exact (moves_poll _ _ _ _ E).
  - destruct p1; try (injection H as <- <- <-; exact (moves_poll _ _ _ _ E)).
    destruct (feed_item c1 i) as [[r c2] o2] eqn:F. destruct r; [injection H as <- _ _; destruct G|].
    destruct (client_loop c2 items) as [[p3 c3] o3] eqn:L. injection H as <- <- <-. rewrite <- !app_assoc.
    pose proof (moves_poll _ _ _ _ E) as M. cbn [out_of] in M. rewrite app_nil_r in M.
    apply (moves_app c c1); [exact M|]. apply (moves_app c1 c2); [exact (moves_feed _ _ _ _ F)|exact (IH _ _ _ _ L G)].
Qed.

Lemma moves_client c items p c' o : client_poll c items = (p, c', o) -> goes_on p -> moves_on c c' (o ++ out_of p).
Proof.
  intros H G. unfold client_poll in H. destruct items as [|i items]; [exact (moves_loop _ _ _ _ _ H G)|].
  destruct (feed_item c i) as [[r c1] o1] eqn:F. destruct r; [injection H as <- _ _; destruct G|].
  destruct (client_loop c1 items) as [[p2 c2] o2] eqn:L. injection H as <- <- <-. rewrite <- app_assoc.
  exact (moves_app _ _ _ _ _ (moves_feed _ _ _ _ F) (moves_loop _ _ _ _ _ L G)).
Qed.

Lemma moves_step k e k' o : k_result k = None -> conn_step k e = (k', o) -> k_result k' = None -> moves_on (k_ctx k) (k_ctx k') o.
Proof.
  intros R H R'. unfold conn_step in H. rewrite R in H. destruct e as [items|t a b d| |s te].
  - destruct (client_poll (k_ctx k) items) as [[p c1] o1] eqn:E.
    destruct p; injection H as <- <-; cbn [k_result] in R'; try discriminate R'; cbn [k_ctx].
    + exact (moves_client _ _ _ _ _ E Logic.I).
    + pose proof (moves_client _ _ _ _ _ E Logic.I) as M. cbn [out_of] in M. rewrite app_nil_r in M. exact M.
  - destruct (is_closed (k_ctx k)); [injection H as <- <-; discriminate R'|].
    destruct (time_event t (k_ctx k) a b d) as [[r c1] o1] eqn:E. injection H as <- <-. cbn [k_ctx].
    apply (moves_app (k_ctx k) (k_ctx k) c1 [XTick t a b d]); [apply moves_same; try reflexivity; repeat constructor|]. exact (moves_time _ _ _ _ _ _ _ _ E).
  - injection H as <- <-. discriminate R'.
  - destruct (mgr_step (c_mgr (k_ctx k)) (MTransport s te)) as [g og] eqn:E. cbn [lift_mgr] in H. injection H as <- <-. cbn [k_ctx].
    cbn [mgr_step] in E. destruct (find_sess (c_mgr (k_ctx k)) s) as [x|] eqn:Ex.
    + destruct (sess_step x (sev_of te)) as [x' oo] eqn:Hs. injection E as <- <-.
      apply (moves_sess (k_ctx k) _ s x _ x' oo [] eq_refl Ex Hs); [destruct te; exact Logic.I|constructor].
    + injection E as <- <-. apply moves_same; try reflexivity. constructor.
Qed.

Lemma moves_run es : forall k k' o, conn_run k es = (k', o) -> k_result k' = None -> moves_on (k_ctx k) (k_ctx k') o.
Proof.
  induction es as [|e es IH]; intros k k' o H R; cbn [conn_run] in H.
  - injection H as <- <-. apply moves_same; try reflexivity. constructor.
  - destruct (conn_step k e) as [k1 o1] eqn:E1. destruct (conn_run k1 es) as [k2 o2] eqn:E2. injection H as -> <-.
    assert (R1 : k_result k1 = None).
    { destruct (k_result k1) eqn:X; [|reflexivity]. exfalso. pose proof (result_stays es k1) as Y. rewrite X, E2 in Y. apply Y; [discriminate|exact R]. }
    assert (R0 : k_result k = None).
    { destruct (k_result k) eqn:X; [|reflexivity]. exfalso. pose proof (result_stays [e] k) as Y. cbn [conn_run] in Y. rewrite X, E1 in Y. apply Y; [discriminate|exact R1]. }
    exact (moves_app _ _ _ _ _ (moves_step _ _ _ _ R0 E1 R1) (IH _ _ _ E2 R)).
Qed.

Lemma acksent_since sid h : forall acc o, acc = acked_out (concat (map snd o)) ->
  fold_left (acksent_step sid) h acc = acked_out (concat (map snd (fold_left (since_step sid) (manager_history h) o))).
Proof.
  induction h as [|x h IH]; intros acc o E; [exact E|]. cbn [fold_left]. change (x :: h) with ([x] ++ h). rewrite mhist_app.
  rewrite fold_left_app. apply IH. destruct x as [| | |m| |]; cbn [acksent_step manager_history flat_map app fold_left]; try exact E.
  destruct m as [s t mac a|s e oo|s|m|w m]; cbn [since_step]; try exact E.
  - destruct (s =? sid); [reflexivity|exact E].
  - destruct (s =? sid); [|exact E]. rewrite map_app, concat_app, acked_out_app, <- E. cbn [map snd concat]. rewrite app_nil_r. reflexivity.
Qed.

Lemma confirmed_out t i v1 v2 es k h sid : connection t i v1 v2 es = (k, h) -> k_result k = None -> okh h ->
  confirmed sid h = acked_out (concat (map snd (since_open sid (manager_history h)))).
Proof.
  intros H R O. unfold since_open. rewrite <- (acksent_since sid h 0 [] eq_refl). unfold connection in H.
  destruct (conn_new t i v1 v2) as [k0 o0] eqn:E0. destruct (conn_run k0 es) as [k1 o1] eqn:E1. injection H as -> <-.
  assert (X : clean (k_ctx k0) /\ agree o0).
  { unfold conn_new in E0. destruct (ctx_new t i v1 v2) as [c o] eqn:C. injection E0 as <- <-. cbn [k_ctx].
    unfold ctx_new, mk_register in C. cbv zeta in C. unfold c_next_id in C. destruct (next_id _) as [i1 f1].
    change (SESSION_WINDOW_SIZE =? 0) with false in C. change (65536 <? SESSION_WINDOW_SIZE) with false in C. cbv iota in C. unfold send_unconfirmed in C.
    match type of C with send_control ?a ?b ?d = _ => pose proof (moves_send a b d ltac:(cbn; lia) ltac:(cbn; lia)) as M end. rewrite C in M. cbn [fst snd] in M. apply M.
    - split; [constructor|constructor|]. intros x s X. discriminate X.
    - exact (okh_app _ _ O). }
  destruct X as [CL AG]. destruct (moves_run es k0 k o1 E1 R CL (okh_right _ _ O)) as [_ AG1].
  exact (agree_app _ _ AG AG1 sid 0).
Qed.

Lemma to_service_since sid h : forall acc o, acc = written (concat (map snd o)) ->
  fold_left (to_service_step sid) h acc = written (concat (map snd (fold_left (since_step sid) (manager_history h) o))).
Proof.
  induction h as [|x h IH]; intros acc o E; [exact E|]. cbn [fold_left]. change (x :: h) with ([x] ++ h). rewrite mhist_app.
  rewrite fold_left_app. apply IH. destruct x as [| | |m| |]; cbn [to_service_step manager_history flat_map app fold_left]; try exact E.
  destruct m as [s t mac a|s e oo|s|m|w m]; cbn [since_step]; try exact E.
  - destruct (s =? sid); [reflexivity|exact E].
  - destruct (s =? sid); [|exact E]. rewrite map_app, concat_app, written_app, <- E. cbn [map snd concat]. rewrite app_nil_r. reflexivity.
Qed.

Lemma room t i v1 v2 es k h sid s : connection t i v1 v2 es = (k, h) -> k_result k = None -> session k sid = Some s -> s_closed s = false ->
  control_has_no_address h -> short_ids h ->
  nlen (data_in sid h) + s_outcap s = 65536 + confirmed sid h.
Proof.
  intros H R S C O1 O2. rewrite (confirmed_out _ _ _ _ _ _ _ sid H R (conj O1 O2)).
  destruct (connection_manager _ _ _ _ _ _ _ H R) as [mes E]. destruct (projection _ _ _ _ _ _ sid s E S) as [svc P].
  pose proof (run_ok_holds svc sid 65536 (map fst (since_open sid (manager_history h)))) as RO. rewrite P in RO.
  destruct (WireFinal.connection_e2e _ _ _ _ _ _ _ H) as [EE _]. pose proof (e_in _ _ (EE R) sid) as J. unfold session in S. rewrite S in J. destruct J as [_ J].
  rewrite (J C), nlen_app. unfold to_service. rewrite (to_service_since sid h [] [] eq_refl). fold (since_open sid (manager_history h)).
  pose proof (ro_ack _ _ _ _ _ _ RO ltac:(lia)). pose proof (ro_bal _ _ _ _ _ _ RO). lia.
Qed.
