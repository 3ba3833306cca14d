(** Everything a connection sends is a message of the client's side of the protocol. *)
From Coq Require Import NArith ZArith List Bool Lia.
From Verif.Model Require Import Bytes Frame Service Control Alist Session Manager Client.
From Verif.Spec Require Import ControlSpec ClientSpec SendSpec.
From Verif.Proofs Require Import BytesFacts AlistFacts ControlProofs ControlReaders EndToEnd ClientInv.
Import ListNotations.
Local Open Scope N_scope.

(** ** Bytes *)
Lemma head2 n : exists a b, to_be 2 n = [a; b].
Proof. cbn [to_be app]. eauto. Qed.
Lemma session_bytes sid : to_be 4 (N.land sid 16777215) = session_field sid.
Proof.
  change 16777215 with (N.ones 24). rewrite N.land_ones. unfold session_field. cbn [to_be app].
  assert (H : sid mod 2 ^ 24 < 2 ^ 24) by (apply N.mod_lt; discriminate). set (x := sid mod 2 ^ 24) in *.
  assert (E : sid = 2 ^ 24 * (sid / 2 ^ 24) + x) by (apply N.div_mod; discriminate). set (q := sid / 2 ^ 24) in *. clearbody x q. subst sid.
  change (2 ^ 24) with 16777216 in *.
  replace (x / 256 / 256 / 256) with 0 by (rewrite !N.div_div by discriminate; symmetry; apply N.div_small; cbn; lia).
  replace (x / 256 / 256) with (x / 65536) by (now rewrite N.div_div).
  assert (A : (16777216 * q + x) / 65536 = 256 * q + x / 65536).
  { replace (16777216 * q) with ((256 * q) * 65536) by lia. apply N.div_add_l. discriminate. }
  assert (B : (16777216 * q + x) / 256 = 65536 * q + x / 256).
  { replace (16777216 * q) with ((65536 * q) * 256) by lia. apply N.div_add_l. discriminate. }
  rewrite A, B.
  assert (M : forall k y, (256 * k + y) mod 256 = y mod 256).
  { intros k y. rewrite N.add_comm, N.mul_comm. apply N.mod_add. discriminate. }
  rewrite M. replace (65536 * q) with (256 * (256 * q)) by lia. rewrite M.
  replace (16777216 * q) with (256 * (65536 * q)) by lia. rewrite M. reflexivity.
Qed.

Lemma entry_ok e : entry_text (element_encode e).
Proof.
  exists (element_header_encode e), (path_or_empty (snd e)). split; [|reflexivity].
  destruct e as [id s]. unfold element_header_encode. rewrite !app_length, !to_be_length, ip_bytes_length. reflexivity.
Qed.
Lemma table_ok t : table_text (table_encode t).
Proof.
  exists (map element_encode t). split; [|unfold table_encode; f_equal; reflexivity].
  apply Forall_forall. intros b Hb. apply in_map_iff in Hb as (e & <- & _). apply entry_ok.
Qed.
Lemma host_ok h : host_text (host_encode h).
Proof.
  exists (to_be 1 (hr_flags h) ++ to_be 6 (hr_mac h) ++ to_be 1 (ip_version (hr_ip h)) ++ ip_bytes (hr_ip h)), (map (to_be 2) (hr_ports h)).
  split; [rewrite !app_length, !to_be_length, ip_bytes_length; reflexivity|]. split.
  - apply Forall_forall. intros b Hb. apply in_map_iff in Hb as (p & <- & _). apply to_be_length.
  - unfold host_encode. rewrite <- !app_assoc. do 5 f_equal. unfold nlen at 2. rewrite map_length. fold (nlen (hr_ports h)).
    unfold u16. apply be16_to_be. apply N.mod_lt. discriminate.
Qed.

(** ** Monotonicity *)
Lemma asked_more h o svc sid : asked_for h svc sid -> asked_for (h ++ o) svc sid.
Proof. intros (e & m & id & Hi & S). exists e, m, id. split; [apply in_or_app; auto|exact S]. Qed.
Lemma mentioned_more h o sid : mentioned h sid -> mentioned (h ++ o) sid.
Proof.
  intros [(svc & A)|(e & m & Hi & S)]; [left; exists svc; now apply asked_more|].
  right. exists e, m. split; [apply in_or_app; auto|exact S].
Qed.
Definition ctl (h : list cobs) (m : amsg) : Prop := m_service m = 0 /\ m_session m = 0 /\ client_control h (m_payload m).
Lemma ctl_more h o m : ctl h m -> ctl (h ++ o) m.
Proof.
  intros (A & B & C). split; [exact A|]. split; [exact B|]. destruct C.
  - now apply (CC_ack (h ++ o) a b).
  - now apply (CC_ping (h ++ o) a b).
  - now apply (CC_update (h ++ o) a b).
  - apply (CC_hup (h ++ o) a b); auto using mentioned_more.
  - now apply (CC_status (h ++ o) a b).
  - now apply (CC_report (h ++ o) a b).
  - apply (CC_data_ack (h ++ o) a b svc); auto using asked_more.
Qed.
Lemma ctls_more h o q : Forall (ctl h) q -> Forall (ctl (h ++ o)) q.
Proof. apply Forall_impl. intros m. apply ctl_more. Qed.

(** ** Control messages *)
Lemma ctl_of h m : client_control h (cmsg_encode m) -> ctl h (amsg_of_cmsg m).
Proof. intros H. split; [reflexivity|]. split; [reflexivity|exact H]. Qed.
Lemma ctl_ack h id err : ctl h (amsg_of_cmsg (mk_ack id err)).
Proof.
  apply ctl_of. unfold cmsg_encode, mk_ack. cbn [cm_id cm_type cm_body body_encode]. destruct (head2 id) as (a & b & ->).
  apply (CC_ack h a b (to_be 4 err)), to_be_length.
Qed.
Lemma ctl_ping h id : ctl h (amsg_of_cmsg (mk_ping id)).
Proof.
  apply ctl_of. unfold cmsg_encode, mk_ping. cbn [cm_id cm_type cm_body body_encode]. destruct (head2 id) as (a & b & ->). apply (CC_ping h a b).
Qed.
Lemma ctl_update h id t : ctl h (amsg_of_cmsg (mk_update id t)).
Proof.
  apply ctl_of. unfold cmsg_encode, mk_update. cbn [cm_id cm_type cm_body body_encode]. destruct (head2 id) as (a & b & ->).
  apply (CC_update h a b), table_ok.
Qed.
Lemma ctl_status h id req fl n : ctl h (amsg_of_cmsg (mk_status id req fl n)).
Proof.
  apply ctl_of. unfold cmsg_encode, mk_status. cbn [cm_id cm_type cm_body body_encode]. destruct (head2 id) as (a & b & ->).
  apply (CC_status h a b). rewrite !app_length, !to_be_length. reflexivity.
Qed.
Lemma ctl_report h id req hosts t : ctl h (amsg_of_cmsg (mk_scan_report id req hosts t)).
Proof.
  apply ctl_of. unfold cmsg_encode, mk_scan_report. cbn [cm_id cm_type cm_body body_encode]. destruct (head2 id) as (a & b & ->).
  pose proof (CC_report h a b (to_be 2 req) (map host_encode hosts) (table_encode t) (to_be_length 2 req)) as H.
  unfold host_table_encode. rewrite <- app_assoc. rewrite (be32_to_be (u32 (nlen hosts))) by (apply N.mod_lt; discriminate).
  unfold nlen at 1 in H. rewrite map_length in H. fold (nlen hosts) in H. apply H; [|apply table_ok].
  apply Forall_forall. intros x Hx. apply in_map_iff in Hx as (y & <- & _). apply host_ok.
Qed.
Lemma ctl_hup h id sid code : mentioned h sid -> In code [0; 3] -> ctl h (amsg_of_cmsg (mk_hup id sid code)).
Proof.
  intros M C. apply ctl_of. unfold cmsg_encode, mk_hup. cbn [cm_id cm_type cm_body body_encode]. destruct (head2 id) as (a & b & ->).
  rewrite session_bytes. replace (to_be 4 code) with [0; 0; 0; code] by (destruct C as [<-|[<-|[]]]; reflexivity).
  exact (CC_hup h a b sid code M C).
Qed.
Lemma ctl_data_ack h id svc sid len : asked_for h svc sid -> ctl h (amsg_of_cmsg (mk_data_ack id sid len)).
Proof.
  intros A. apply ctl_of. unfold cmsg_encode, mk_data_ack. cbn [cm_id cm_type cm_body body_encode]. destruct (head2 id) as (a & b & ->).
  rewrite session_bytes. exact (CC_data_ack h a b svc sid _ A (to_be_length 4 len)).
Qed.

(** ** Sessions *)
Definition data_of (h : list cobs) (m : amsg) : Prop :=
  exists svc sid, asked_for h svc sid /\ m_service m = svc /\ m_session m = sid mod 2 ^ 24 /\ m_payload m <> [].
Definition known (g : mgr) (h : list cobs) : Prop :=
  forall sid s, find_sess g sid = Some s -> s_session s = sid /\ asked_for h (s_service s) sid.

Lemma known_more g h o : known g h -> known g (h ++ o).
Proof. intros K sid s F. destruct (K _ _ F) as [A B]. split; [exact A|now apply asked_more]. Qed.
Lemma known_ext g g' h : (forall sid, find_sess g' sid = find_sess g sid) -> known g h -> known g' h.
Proof. intros E K sid s. rewrite E. apply K. Qed.
Lemma known_set g h k s e : known g h -> find_sess g k = Some s -> known (set_sess g k (fst (sess_step s e))) h.
Proof.
  intros K F sid s'. rewrite find_set. destruct (N.eqb_spec sid k) as [->|]; [|apply K].
  intros E. injection E as <-. destruct (kept s e) as [-> ->]. exact (K _ _ F).
Qed.
Lemma known_remove g h k g' : known g h -> (forall sid, find_sess g' sid = if sid =? k then None else find_sess g sid) -> known g' h.
Proof. intros K E sid s. rewrite E. destruct (sid =? k); [discriminate|apply K]. Qed.

Lemma take_frame h f s t s' f' o sid : sess_take f s = (t, s', f', o) -> s_session s = sid -> asked_for h (s_service s) sid ->
  match t with TkMsg m => ctl h m \/ data_of h m | _ => True end.
Proof.
  intros H Hs A. unfold sess_take in H. destruct (0 <? s_written s).
  - destruct (next_id f) as [id f1]. injection H as <- <- <- <-. left. rewrite Hs. exact (ctl_data_ack h _ _ _ _ A).
  - destruct (firstn _ _) as [|d0 d] eqn:D.
    + destruct (s_closed _); [destruct (s_error _)|]; injection H as <- <- <- <-; exact Logic.I.
    + injection H as <- <- <- <-. right. exists (s_service s), sid. split; [exact A|]. unfold amsg_new.
      assert (E : forall (b : bool) x, s_service (if b then wake_tr x else x) = s_service x /\
        s_session (if b then wake_tr x else x) = s_session x).
      { intros b x. unfold wake_tr. destruct b; [destruct (s_tr_waker x)|]; split; reflexivity. }
      cbn [m_service m_session m_payload]. rewrite (proj1 (E _ _)), (proj2 (E _ _)).
      split; [reflexivity|]. split; [|discriminate]. change (s_session (with_input _ _)) with (s_session s). rewrite Hs.
      change 16777215 with (N.ones 24). apply N.land_ones.
Qed.

Lemma hup_fields g sid code m g' : create_hup g sid code = (m, g') ->
  (exists id, m = amsg_of_cmsg (mk_hup id sid code)) /\ (forall k, find_sess g' k = find_sess g k) /\ g_queue g' = g_queue g.
Proof.
  unfold create_hup. destruct (next_id _) as [id f]. intros E. injection E as <- <-. split; [eauto|]. split; reflexivity.
Qed.

Lemma loop_frames h : forall n g r g' o, known g h -> poll_loop n g = (r, g', o) ->
  known g' h /\ g_queue g' = g_queue g /\ forall m, polled_msg o = Some m -> ctl h m \/ data_of h m.
Proof.
  induction n as [|n IH]; intros g r g' o K H; cbn [poll_loop] in H.
  { injection H as <- <- <-. split; [exact K|]. split; [reflexivity|discriminate]. }
  destruct (g_order g) as [|k rest]; [exact (IH _ _ _ _ K H)|].
  destruct (find_sess (set_order g rest) k) as [s|] eqn:F.
  2: { apply IH in H; [exact H|exact K]. }
  change (find_sess (set_order g rest) k) with (find_sess g k) in F.
  cbn [set_order g_factory] in H.
  destruct (sess_take (g_factory g) s) as [[[t s'] f'] so] eqn:T.
  assert (S' : s' = fst (sess_step s (ETake (g_factory g)))) by (cbn [sess_step]; now rewrite T).
  destruct (K _ _ F) as [E1 A]. pose proof (take_frame h _ _ _ _ _ _ k T E1 A) as Fr.
  assert (Ks : known (set_sess (set_factory (set_order g rest) f') k s') h).
  { rewrite S'. apply known_set with (g := set_factory (set_order g rest) f'); [exact K|exact F]. }
  assert (End : forall code g1 m, In code [0; 3] ->
    create_hup (set_sessions (set_factory (set_order g rest) f') (aremove k (g_sessions (set_factory (set_order g rest) f')))) k code = (m, g1) ->
    known g1 h /\ g_queue g1 = g_queue g /\ ctl h m).
  { intros code g1 m Ic C. destruct (hup_fields _ _ _ _ _ C) as ((id & ->) & Ef & Eq). split; [|split].
    - apply (known_remove g h k); [exact K|]. intros sid. rewrite Ef. exact (find_remove g k sid).
    - rewrite Eq. reflexivity.
    - apply ctl_hup; [|exact Ic]. left. eauto. }
  destruct t as [m| | |].
  - injection H as <- <- <-. split; [exact Ks|]. split; [reflexivity|]. cbn [polled_msg]. intros m0 Em. injection Em as <-. exact Fr.
  - destruct (create_hup _ k EC_CONNECTION_ERROR) as [m g3] eqn:C. injection H as <- <- <-.
    destruct (End _ _ _ (or_intror (or_introl eq_refl)) C) as (A1 & A2 & A3). split; [exact A1|]. split; [exact A2|].
    cbn [polled_msg]. intros m0 Em. injection Em as <-. now left.
  - destruct (create_hup _ k EC_NO_ERROR) as [m g3] eqn:C. injection H as <- <- <-.
    destruct (End _ _ _ (or_introl eq_refl) C) as (A1 & A2 & A3). split; [exact A1|]. split; [exact A2|].
    cbn [polled_msg]. intros m0 Em. injection Em as <-. now left.
  - destruct (poll_loop n _) as [[r3 g3] os] eqn:L. injection H as <- <- <-. apply IH in L; [|exact Ks].
    destruct L as (A1 & A2 & A3). split; [exact A1|]. split; [exact A2|]. cbn [polled_msg]. exact A3.
Qed.

Lemma poll_frames h g g' o : known g h -> Forall (ctl h) (g_queue g) -> mgr_poll g = (g', o) ->
  known g' h /\ Forall (ctl h) (g_queue g') /\ forall m, polled_msg o = Some m -> ctl h m \/ data_of h m.
Proof.
  intros K Q H. unfold mgr_poll in H. destruct (g_queue g) as [|m q] eqn:E.
  - destruct (poll_loop _ g) as [[r g1] o1] eqn:L. destruct (loop_frames h _ _ _ _ _ K L) as (A & B & C).
    destruct r; injection H as <- <-; (split; [exact A|]); (split; [|exact C]); cbn [g_queue set_task]; rewrite B, E; constructor.
  - injection H as <- <-. inversion Q; subst. split; [exact K|]. split; [assumption|].
    cbn [polled_msg]. intros m0 Em. injection Em as <-. now left.
Qed.

(** Events of the server. *)
Lemma queue_hup h g k m g' : known g h -> Forall (ctl h) (g_queue g) -> mentioned h k -> create_hup g k EC_CONNECTION_ERROR = (m, g') ->
  let g1 := wake_task (set_queue g' (g_queue g' ++ [m])) in known g1 h /\ Forall (ctl h) (g_queue g1).
Proof.
  intros K Q M C. destruct (hup_fields _ _ _ _ _ C) as ((id & ->) & Ef & Eq). cbv zeta.
  assert (W : forall x, g_queue (wake_task x) = g_queue x) by (intros x; unfold wake_task; destruct (g_task x); reflexivity).
  split.
  - apply (known_ext g); [|exact K]. intros sid. rewrite find_wake. apply Ef.
  - rewrite W. cbn [g_queue set_queue]. rewrite Eq. apply Forall_app. split; [exact Q|]. constructor; [|constructor].
    apply ctl_hup; [exact M|now right; left].
Qed.

Definition mev_ok (h : list cobs) (e : mev) : Prop :=
  match e with
  | MConnect _ svc sid => asked_for h svc sid
  | MSend m => mentioned h (m_session m)
  | MPoll => False
  | _ => True
  end.
Lemma step_frames h g e g' o : known g h -> Forall (ctl h) (g_queue g) -> mev_ok h e -> mgr_step g e = (g', o) ->
  known g' h /\ Forall (ctl h) (g_queue g').
Proof.
  intros K Q M H. destruct e as [get svc sid|m|sid|sid len| |sid t|f]; cbn [mgr_step mev_ok] in *.
  - unfold mgr_connect in H. destruct (connect_inner g get svc sid) as [[[ty mac] a]|].
    + injection H as <- <-. split.
      * intros k s. rewrite find_set. destruct (N.eqb_spec k sid) as [->|].
        -- intros E. injection E as <-. split; [reflexivity|exact M].
        -- rewrite find_wake. apply K.
      * unfold wake_task. cbn [g_task set_order]. destruct (g_task g); exact Q.
    + destruct (create_hup g sid _) as [m g1] eqn:C. injection H as <- <-. apply (queue_hup h g sid m g1 K Q); [|exact C]. left. eauto.
  - unfold mgr_send in H. destruct (find_sess g (m_session m)) as [s|] eqn:F.
    + pose proof (known_set g h (m_session m) s (EPush (m_payload m)) K F) as K'.
      destruct (sess_step s _) as [s' o']. injection H as <- <-. split; [exact K'|exact Q].
    + destruct (create_hup g _ _) as [m' g1] eqn:C. injection H as <- <-. exact (queue_hup h g _ m' g1 K Q M C).
  - unfold mgr_close in H. destruct (find_sess g sid) as [s|] eqn:F; [|injection H as <- <-; auto].
    destruct (sess_step s EClose) as [s' o']. injection H as <- <-. split; [|exact Q].
    apply (known_remove g h sid); [exact K|]. intros k. apply find_remove.
  - unfold mgr_data_ack in H. destruct (find_sess g sid) as [s|] eqn:F; [|injection H as <- <-; auto].
    pose proof (known_set g h sid s (EDataAck len) K F) as K'. destruct (sess_step s _) as [s' o']. injection H as <- <-. split; [exact K'|exact Q].
  - contradiction.
  - destruct (find_sess g sid) as [s|] eqn:F; [|injection H as <- <-; auto].
    pose proof (known_set g h sid s (sev_of t) K F) as K'. destruct (sess_step s _) as [s' o']. injection H as <- <-. split; [exact K'|exact Q].
  - injection H as <- <-. split; [exact K|exact Q].
Qed.

(** ** Connections *)
Section Connection.
  Variable i : identity.
  Variable reg : cmsg.
  Hypothesis Hreg : register_text i (cmsg_encode reg).

  Record inv (c : ctx) (h : list cobs) : Prop := {
    iv_known : known (c_mgr c) h;
    iv_queue : Forall (ctl h) (g_queue (c_mgr c));
    iv_msgs : (sent h = [] /\ exists q, c_messages c = amsg_of_cmsg reg :: q /\ Forall (ctl h) q) \/
              (sent h <> [] /\ Forall (ctl h) (c_messages c))
  }.
  Definition legal (h : list cobs) : Prop := forall h1 m h2, h = h1 ++ XSent m :: h2 -> client_frame i h1 m.
  Definition quiet (o : list cobs) : Prop := sent o = [].

  Lemma split_last {A} (l : list A) : l = [] \/ exists l' x, l = l' ++ [x].
  Proof using. destruct l as [|a l] using rev_ind; [now left|right; eauto]. Qed.
  Lemma legal_snoc h x : legal h -> match x with XSent m => client_frame i h m | _ => True end -> legal (h ++ [x]).
  Proof using.
    intros L X h1 m h2 E. destruct (split_last h2) as [->|(l & y & ->)].
    - apply app_inj_tail in E as [-> ->]. exact X.
    - rewrite app_comm_cons, app_assoc in E. apply app_inj_tail in E as [-> _]. now apply (L h1 m l).
  Qed.
  Lemma legal_quiet o : forall h, legal h -> quiet o -> legal (h ++ o).
  Proof using.
    induction o as [|x o IH]; intros h L Q; [now rewrite app_nil_r|].
    replace (h ++ x :: o) with ((h ++ [x]) ++ o) by now rewrite <- app_assoc.
    apply IH; [|destruct x; try discriminate Q; exact Q]. apply legal_snoc; [exact L|]. destruct x; try exact Logic.I. discriminate Q.
  Qed.

  Lemma quiet_mgr o : quiet (map XMgr o).
  Proof using. induction o; [reflexivity|exact IHo]. Qed.
  Lemma quiet_app a b : quiet a -> quiet b -> quiet (a ++ b).
  Proof using. unfold quiet. intros A B. now rewrite sent_app, A, B. Qed.
  Lemma inv_quiet c h o : inv c h -> quiet o -> inv c (h ++ o).
  Proof using.
    intros [A B C] Q. split; [now apply known_more|now apply ctls_more|]. rewrite sent_app, Q, app_nil_r.
    destruct C as [(S & q & E & F)|(S & F)]; [left; split; [exact S|]; exists q; split; [exact E|now apply ctls_more]|right; split; [exact S|now apply ctls_more]].
  Qed.
  (** Only the parts the invariant looks at matter. *)
  Lemma inv_ext c c' h : c_mgr c' = c_mgr c -> c_messages c' = c_messages c -> inv c h -> inv c' h.
  Proof using. intros E1 E2 [A B C]. split; rewrite ?E1, ?E2; assumption. Qed.
  Lemma inv_mgr c g h : inv c h -> known g h -> Forall (ctl h) (g_queue g) -> inv (set_mgr c g) h.
  Proof using. intros [_ _ C] A B. now split. Qed.
  Lemma send_inv t c m h : inv c h -> ctl h (amsg_of_cmsg m) -> inv (fst (send_control t c m)) h.
  Proof using.
    intros [A B C] M. unfold send_control. cbn [fst]. set (c1 := set_messages c _).
    apply (inv_ext c1); [destruct (c_task c1); reflexivity..|]. split; [exact A|exact B|].
    destruct C as [(S & q & E & F)|(S & F)].
    - left. split; [exact S|]. exists (q ++ [amsg_of_cmsg m]). split; [unfold c1; cbn [c_messages set_messages]; now rewrite E|].
      apply Forall_app. split; [exact F|]. constructor; [exact M|constructor].
    - right. split; [exact S|]. apply Forall_app. split; [exact F|]. constructor; [exact M|constructor].
  Qed.
  Lemma next_inv c h : inv c h -> inv (snd (c_next_id c)) h.
  Proof using. intros [A B C]. unfold c_next_id. cbn [next_id snd]. split; assumption. Qed.

  Lemma ping_inv t c h : inv c h -> inv (fst (send_ping t c)) h.
  Proof using.
    intros I0. unfold send_ping. pose proof (next_inv _ _ I0) as I1. destruct (c_next_id c) as [id c1]. cbn [snd] in I1.
    unfold send_unconfirmed. set (c2 := set_acks c1 _).
    assert (I2 : inv c2 h) by (apply (inv_ext c1); auto).
    pose proof (send_inv t c2 (mk_ping id) h I2 (ctl_ping h id)) as I3. destruct (send_control t c2 (mk_ping id)) as [c3 o3].
    cbn [fst] in *. now apply (inv_ext c3).
  Qed.
  Lemma check_inv t c v0 v1 v2 h : inv c h -> inv (fst (check_for_updates t c v0 v1 v2)) h.
  Proof using.
    intros I0. unfold check_for_updates. destruct (c_version c =? v_version v0); [now apply (inv_ext c)|].
    unfold send_update. pose proof (next_inv _ _ I0) as I1. destruct (c_next_id c) as [id c1]. cbn [snd] in I1.
    set (c2 := set_version c1 _). assert (I2 : inv c2 h) by (apply (inv_ext c1); auto).
    pose proof (send_inv t c2 (mk_update id (table_of_services (v_visible v1))) h I2 (ctl_update h id _)) as I3.
    destruct (send_control t c2 _) as [c3 o3]. cbn [fst] in *. now apply (inv_ext c3).
  Qed.
  Lemma time_inv t c v0 v1 v2 h r c' o : inv c h -> time_event t c v0 v1 v2 = (r, c', o) -> inv c' h /\ quiet o.
  Proof using.
    intros I0 H. unfold time_event in H. destruct (c_established c); [|injection H as <- <- <-; split; [exact I0|reflexivity]].
    assert (X : inv (fst (if (PING_PERIOD <=? t - c_last_ping c)%Z then send_ping t c else (c, []))) h /\
                quiet (snd (if (PING_PERIOD <=? t - c_last_ping c)%Z then send_ping t c else (c, [])))).
    { destruct (_ <=? _)%Z; [|split; [exact I0|reflexivity]]. split; [now apply ping_inv|reflexivity]. }
    destruct (if (PING_PERIOD <=? t - c_last_ping c)%Z then send_ping t c else (c, [])) as [c1 o1]. cbn [fst snd] in X. destruct X as [I1 Q1].
    assert (Y : inv (fst (if (UPDATE_CHECK_PERIOD <=? t - c_last_check c1)%Z then check_for_updates t c1 v0 v1 v2 else (c1, []))) h /\
                quiet (snd (if (UPDATE_CHECK_PERIOD <=? t - c_last_check c1)%Z then check_for_updates t c1 v0 v1 v2 else (c1, [])))).
    { destruct (_ <=? _)%Z; [|split; [exact I1|reflexivity]]. split; [now apply check_inv|]. unfold check_for_updates.
      destruct (_ =? _); reflexivity. }
    destruct (if (UPDATE_CHECK_PERIOD <=? t - c_last_check c1)%Z then check_for_updates t c1 v0 v1 v2 else (c1, [])) as [c2 o2]. cbn [fst snd] in Y.
    injection H as <- <- <-. destruct Y. split; [assumption|]. now apply quiet_app.
  Qed.

  Lemma control_inv t e c m r c' o h : inv c h -> (forall svc sid, cm_body m = BConnect svc sid -> message_type (cm_type m) = CONNECT -> asked_for h svc sid) ->
    process_control t e c m = (r, c', o) -> inv c' h /\ quiet o.
  Proof using.
    intros I0 A H. unfold process_control in H. cbv zeta in H.
    assert (ME : forall ev g' om, mev_ok h ev -> mgr_step (c_mgr c) ev = (g', om) -> inv (set_mgr c g') h).
    { intros ev g' om M S. destruct (step_frames h _ _ _ _ (iv_known _ _ I0) (iv_queue _ _ I0) M S). now apply inv_mgr. }
    assert (PA : forall id err, inv (snd (process_ack e c id err)) h).
    { intros id err. unfold process_ack. destruct (c_acks c) as [|[t0 x] q]; [exact I0|]. destruct (id =? x); [|now apply (inv_ext c)].
      destruct (c_established c); [now apply (inv_ext c)|]. unfold handshake_ack.
      destruct (err =? EC_NO_ERROR); [destruct (e_diagnostic e); now apply (inv_ext c)|].
      destruct (err =? EC_UNAUTHORIZED); [now apply (inv_ext c)|]. destruct (err =? EC_UNSUPPORTED_PROTOCOL_VERSION); [now apply (inv_ext c)|].
      destruct (err =? EC_INTERNAL_SERVER_ERROR); now apply (inv_ext c). }
    assert (LM : forall ev, mev_ok h ev -> inv (fst (lift_mgr c (mgr_step (c_mgr c) ev))) h /\ quiet (snd (lift_mgr c (mgr_step (c_mgr c) ev)))).
    { intros ev M. destruct (mgr_step (c_mgr c) ev) as [g om] eqn:S. cbn [lift_mgr fst snd]. split; [exact (ME ev _ _ M S)|apply quiet_mgr]. }
    assert (Fin : forall x : ctx * list cobs, (None, fst x, snd x) = (r, c', o) -> inv (fst x) h /\ quiet (snd x) -> inv c' h /\ quiet o).
    { intros [x1 x2] E X. cbn [fst snd] in *. injection E as _ <- <-. exact X. }
    destruct (message_type (cm_type m)) eqn:T; destruct (cm_body m) eqn:Bd; try (injection H as <- <- <-; split; [exact I0|reflexivity]; fail);
      try (specialize (PA (cm_id m) err); destruct (process_ack e c (cm_id m) err) as [r1 c1]; injection H as <- <- <-; split; [exact PA|reflexivity]; fail);
      destruct (c_established c); try (injection H as <- <- <-; split; [exact I0|reflexivity]; fail);
      apply (Fin _ H);
      try (split; [apply send_inv; [exact I0|apply ctl_ack]|reflexivity]; fail);
      try (pose proof (next_inv _ _ I0) as I1; unfold c_next_id in I1; cbn [next_id snd] in I1;
           split; [apply send_inv; [exact I1|apply ctl_status || apply ctl_report]|reflexivity]; fail);
      try (split; [exact I0|reflexivity]; fail);
      match goal with
      | H : context [mgr_close (c_mgr c) ?s] |- _ => exact (LM (MClose s) Logic.I)
      | H : context [mgr_data_ack (c_mgr c) ?s ?n] |- _ => exact (LM (MDataAck s n) Logic.I)
      | H : context [mgr_connect (c_mgr c) ?g ?v ?s] |- _ => exact (LM (MConnect g v s) (A _ _ eq_refl eq_refl))
      | |- _ => split; [cbn [fst]; destruct (c_task _); now apply (inv_ext c)|reflexivity]
      end.
  Qed.

  Lemma message_inv t e c m r c' o h : inv c h -> process_message t e c m = (r, c', o) -> bytes_received (h ++ o) -> inv c' (h ++ o) /\ quiet o.
  Proof using.
    intros I0 H W. unfold process_message in H. destruct (is_closed c); [injection H as <- <- <-; rewrite app_nil_r; split; [exact I0|reflexivity]|].
    set (h0 := h ++ [XRecv e m]). assert (J0 : inv c h0) by (apply inv_quiet; [exact I0|reflexivity]).
    assert (Fin : forall r1 c1 o1, (r1, c1, XRecv e m :: o1) = (r, c', o) -> inv c1 h0 /\ quiet o1 -> inv c' (h ++ o) /\ quiet o).
    { intros r1 c1 o1 E [J Q]. injection E as <- <- <-. replace (h ++ XRecv e m :: o1) with (h0 ++ o1) by (unfold h0; now rewrite <- app_assoc).
      split; [now apply inv_quiet|exact Q]. }
    assert (Wm : wf_bytes (m_payload m)).
    { apply (W e m). apply in_or_app. right.
      destruct (m_service m =? 0); [destruct (cmsg_from_bytes (m_payload m)) as [cm| |]; [destruct (process_control t e c cm) as [[? ?] ?]|..]|
        destruct (c_established c); [destruct (lift_mgr c _)|]]; injection H as <- <- <-; now left. }
    destruct (N.eqb_spec (m_service m) 0) as [Z|Z].
    - destruct (cmsg_from_bytes (m_payload m)) as [cm| |] eqn:D;
        [|apply Fin in H; [exact H|]; split; [exact J0|reflexivity]..].
      destruct (process_control t e c cm) as [[r1 c1] o1] eqn:C. apply Fin in H; [exact H|].
      apply (control_inv t e c cm r1 c1 o1 h0 J0); [|exact C]. intros svc sid Bd _.
      exists e, m, (cm_id cm). split; [apply in_or_app; right; now left|]. split; [exact Z|].
      pose proof (accept_sound _ _ Wm D) as S. destruct S; try discriminate Bd. injection Bd as <- <-. now constructor.
    - destruct (c_established c); [|apply Fin in H; [exact H|]; split; [exact J0|reflexivity]].
      destruct (mgr_send (c_mgr c) m) as [g om] eqn:S. cbn [lift_mgr] in H. apply Fin in H; [exact H|].
      assert (Me : mev_ok h0 (MSend m)) by (right; exists e, m; split; [apply in_or_app; right; now left|auto]).
      destruct (step_frames h0 (c_mgr c) (MSend m) g om (iv_known _ _ J0) (iv_queue _ _ J0) Me S) as [K Q].
      split; [now apply inv_mgr|apply quiet_mgr].
  Qed.

  Lemma feed_inv c x r c' o h : inv c h -> feed_item c x = (r, c', o) -> bytes_received (h ++ o) -> inv c' (h ++ o) /\ quiet o.
  Proof using.
    destruct x as [t e m| |]; cbn [feed_item]; intros I0 H W; [exact (message_inv _ _ _ _ _ _ _ _ I0 H W)|..];
      injection H as <- <- <-; rewrite app_nil_r; (split; [|reflexivity]); [exact I0|now apply (inv_ext c)].
  Qed.

  (** A poll. *)
  Definition after (p : polled) (c : ctx) (h : list cobs) : Prop :=
    match p with
    | PReady m => client_frame i h m /\ inv c (h ++ [XSent m])
    | PError _ => True
    | _ => inv c h
    end.
  Lemma snoc_inv c h m : known (c_mgr c) h -> Forall (ctl h) (g_queue (c_mgr c)) -> Forall (ctl h) (c_messages c) -> inv c (h ++ [XSent m]).
  Proof using.
    intros A B C. split; [now apply known_more|now apply ctls_more|]. right. split; [|now apply ctls_more].
    rewrite sent_app. cbn. intros E. now apply app_eq_nil in E.
  Qed.
  Lemma later_frame h m : sent h <> [] -> ctl h m \/ data_of h m -> client_frame i h m.
  Proof using. unfold client_frame. destruct (sent h) eqn:E; [congruence|]. intros _ X. exact X. Qed.

  Lemma poll_inv c h p c' o : inv c h -> ctx_poll c = (p, c', o) -> after p c' (h ++ o) /\ quiet o.
  Proof using Hreg.
    intros I0 H. unfold ctx_poll in H. destruct (is_closed c); [injection H as <- <- <-; rewrite app_nil_r; split; [exact I0|reflexivity]|].
    destruct (c_messages c) as [|m q] eqn:M.
    - destruct (mgr_poll (c_mgr c)) as [g om] eqn:P.
      destruct (poll_frames h _ _ _ (iv_known _ _ I0) (iv_queue _ _ I0) P) as (K & Q & F).
      destruct (iv_msgs _ _ I0) as [(_ & q & E & _)|(S & _)]; [rewrite M in E; discriminate|].
      assert (J : inv (set_mgr c g) (h ++ map XMgr om)).
      { apply inv_quiet; [|apply quiet_mgr]. now apply inv_mgr. }
      destruct (polled_msg om) as [m|] eqn:Pm; injection H as <- <- <-; (split; [|apply quiet_mgr]); cbn [after].
      + split.
        * apply later_frame; [rewrite sent_app; intros E; now apply app_eq_nil in E|].
          destruct (F m eq_refl) as [X|(svc & sid & A & X)]; [left; now apply ctl_more|right; exists svc, sid; split; [now apply asked_more|exact X]].
        * apply snoc_inv; cbn [set_ctask c_mgr set_mgr c_messages]; [apply (iv_known _ _ J)|apply (iv_queue _ _ J)|rewrite M; constructor].
      + now apply (inv_ext (set_mgr c g)).
    - injection H as <- <- <-. split; [|reflexivity]. rewrite app_nil_r. cbn [after].
      destruct I0 as [A B [(S & q' & E & F)|(S & F)]].
      + rewrite M in E. injection E as -> ->. split; [|now apply snoc_inv].
        unfold client_frame. rewrite S. split; [reflexivity|]. split; [reflexivity|exact Hreg].
      + rewrite M in F. inversion F; subst. split; [|now apply snoc_inv]. apply later_frame; [exact S|now left].
  Qed.

  Lemma loop_inv : forall items c h p c' o, inv c h -> client_loop c items = (p, c', o) -> bytes_received (h ++ o) -> after p c' (h ++ o) /\ quiet o.
  Proof using Hreg.
    induction items as [|x items IH]; intros c h p c' o I0 H W; cbn [client_loop] in H;
      destruct (ctx_poll c) as [[p1 c1] o1] eqn:P; pose proof (poll_inv _ _ _ _ _ I0 P) as [K1 Q1];
      destruct p1; try (injection H as <- <- <-; split; assumption).
    destruct (feed_item c1 x) as [[r c2] o2] eqn:Fi. cbn [after] in K1.
    assert (Hb : forall o3, o = o1 ++ o2 ++ o3 -> bytes_received ((h ++ o1) ++ o2)).
    { intros o3 -> e m Hi. apply (W e m). rewrite !app_assoc. apply in_or_app. now left. }
    destruct r as [k|].
    - injection H as <- <- <-. split; [exact Logic.I|]. apply quiet_app; [exact Q1|].
      apply (feed_inv _ _ _ _ _ _ K1 Fi). apply (Hb []). now rewrite app_nil_r.
    - destruct (client_loop c2 items) as [[p3 c3] o3] eqn:L. injection H as <- <- <-.
      destruct (feed_inv _ _ _ _ _ _ K1 Fi (Hb o3 eq_refl)) as [K2 Q2].
      assert (W3 : bytes_received (((h ++ o1) ++ o2) ++ o3)) by (rewrite <- !app_assoc; exact W).
      destruct (IH _ _ _ _ _ K2 L W3) as [K3 Q3].
      rewrite <- !app_assoc in K3. split; [exact K3|]. apply quiet_app; [exact Q1|now apply quiet_app].
  Qed.
  Lemma client_inv items c h p c' o : inv c h -> client_poll c items = (p, c', o) -> bytes_received (h ++ o) -> after p c' (h ++ o) /\ quiet o.
  Proof using Hreg.
    intros I0 H W. unfold client_poll in H. destruct items as [|x items]; [exact (loop_inv [] _ _ _ _ _ I0 H W)|].
    destruct (feed_item c x) as [[r c2] o2] eqn:Fi. destruct r as [k|].
    - injection H as <- <- <-. split; [exact Logic.I|]. now apply (feed_inv _ _ _ _ _ _ I0 Fi).
    - destruct (client_loop c2 items) as [[p3 c3] o3] eqn:L. injection H as <- <- <-.
      assert (W3 : bytes_received ((h ++ o2) ++ o3)) by (rewrite <- app_assoc; exact W).
      assert (W2 : bytes_received (h ++ o2)) by (intros e m Hi; apply (W3 e m), in_or_app; now left).
      destruct (feed_inv _ _ _ _ _ _ I0 Fi W2) as [K2 Q2]. destruct (loop_inv _ _ _ _ _ _ K2 L W3) as [K3 Q3].
      rewrite <- app_assoc in K3. split; [exact K3|now apply quiet_app].
  Qed.

  Definition kinv (k : conn) (h : list cobs) : Prop := legal h /\ (k_result k = None -> inv (k_ctx k) h).
  Lemma step_inv k e k' o h : kinv k h -> conn_step k e = (k', o) -> bytes_received (h ++ o) -> kinv k' (h ++ o).
  Proof using Hreg.
    intros [L I0] H W. unfold conn_step in H. destruct (k_result k) as [x|] eqn:R.
    { injection H as <- <-. rewrite app_nil_r. split; [exact L|]. intros E. rewrite R in E. discriminate. }
    specialize (I0 eq_refl). destruct e as [items|t v0 v1 v2| |sid te].
    - destruct (client_poll (k_ctx k) items) as [[p c1] o1] eqn:P.
      assert (W1 : bytes_received (h ++ o1)).
      { intros e m Hi. apply (W e m). destruct p; injection H as <- <-; try exact Hi. rewrite app_assoc. apply in_or_app. now left. }
      destruct (client_inv _ _ _ _ _ _ I0 P W1) as [K Q].
      destruct p as [m|kd| |]; injection H as <- <-; cbn [after] in K.
      + destruct K as [F J]. rewrite app_assoc. split; [|intros _; exact J].
        apply legal_snoc; [now apply legal_quiet|exact F].
      + split; [now apply legal_quiet|discriminate].
      + split; [now apply legal_quiet|discriminate].
      + split; [now apply legal_quiet|intros _; exact K].
    - destruct (is_closed (k_ctx k)); [injection H as <- <-; rewrite app_nil_r; split; [exact L|discriminate]|].
      destruct (time_event t (k_ctx k) v0 v1 v2) as [[r c1] o1] eqn:T. injection H as <- <-.
      destruct (time_inv _ _ _ _ _ _ _ _ _ I0 T) as [J Q].
      split; [now apply legal_quiet|]. intros _. cbn [k_ctx]. now apply inv_quiet.
    - injection H as <- <-. rewrite app_nil_r. split; [exact L|discriminate].
    - destruct (mgr_step (c_mgr (k_ctx k)) (MTransport sid te)) as [g om] eqn:S. unfold lift_mgr in H. injection H as <- <-.
      destruct (step_frames h _ (MTransport sid te) _ _ (iv_known _ _ I0) (iv_queue _ _ I0) Logic.I S) as [K Q].
      split; [apply legal_quiet; [exact L|apply quiet_mgr]|]. intros _. cbn [k_ctx].
      apply inv_quiet; [now apply inv_mgr|apply quiet_mgr].
  Qed.
  Lemma run_inv es : forall k k' o h, kinv k h -> conn_run k es = (k', o) -> bytes_received (h ++ o) -> kinv k' (h ++ o).
  Proof using Hreg.
    induction es as [|e es IH]; intros k k' o h K H W; cbn [conn_run] in H; [injection H as <- <-; now rewrite app_nil_r|].
    destruct (conn_step k e) as [k1 o1] eqn:S. destruct (conn_run k1 es) as [k2 o2] eqn:R. injection H as <- <-.
    rewrite app_assoc in *. eapply IH; eauto. eapply step_inv; eauto. intros x m Hi. apply (W x m), in_or_app. now left.
  Qed.
End Connection.

Lemma reg_text i v1 : register_text i (cmsg_encode (reg_msg i v1)).
Proof.
  exists (to_be 6 (id_mac i)), (table_encode (table_of_services (v_visible v1))). split; [apply to_be_length|]. split; [apply table_ok|].
  unfold reg_msg, cmsg_encode. cbn [cm_id cm_type cm_body body_encode]. rewrite <- !app_assoc.
  change (to_be 2 REGISTER_ID ++ to_be 2 2 ++ ?x) with ([0; 0; 0; 2] ++ x). do 4 f_equal.
  change (to_be 2 65535) with [255; 255]. f_equal. destruct (id_gateway i); reflexivity.
Qed.

Lemma sends_legal t0 i v1 v2 es k h h1 m h2 : connection t0 i v1 v2 es = (k, h) -> bytes_received h ->
  h = h1 ++ XSent m :: h2 -> client_frame i h1 m.
Proof.
  unfold connection, conn_new. intros H W E.
  destruct (ctx_new t0 i v1 v2) as [c o] eqn:N0. destruct (conn_run _ es) as [k' o'] eqn:R. injection H as <- <-.
  assert (K0 : kinv i (reg_msg i v1) {| k_ctx := c; k_result := None |} o).
  { unfold ctx_new in N0. cbn [c_next_id next_id] in N0.
    assert (M : mk_register (u16 factory_new) (id_uuid i) (id_key i) (id_mac i) SESSION_WINDOW_SIZE (id_gateway i)
                  (table_of_services (v_visible v1)) (id_info i) = ROk (reg_msg i v1)) by (unfold reg_msg; destruct (id_gateway i); reflexivity).
    cbn [g_factory c_mgr mgr_new] in N0. rewrite M in N0. unfold send_unconfirmed in N0. cbn in N0. injection N0 as <- <-. split.
    - intros a x b X. destruct a as [|y [|z a]]; discriminate X.
    - intros _. split; [intros sid s F; discriminate F|constructor|]. left. split; [reflexivity|]. exists []. split; [reflexivity|constructor]. }
  exact (proj1 (run_inv i (reg_msg i v1) (reg_text i v1) es _ _ _ _ K0 R W) h1 m h2 E).
Qed.

(** ** A case *)
From Verif.Proofs Require Import ClientPropsPf2.
Definition send_events : list kev :=
  session_events 0 ++
  [KTransport 7 TConnected; KTransport 7 (TPolled (RdData [1; 2]) WrPending); KPoll [];
   KPoll [SMsg 3 (env0 view9) {| m_service := 5; m_session := 7; m_payload := [9] |}];
   KTransport 7 (TPolled RdPending (WrOk 1)); KPoll [];
   KPoll [SMsg 4 (env0 view9) {| m_service := 5; m_session := 8; m_payload := [9] |}];
   KTransport 7 (TPolled (RdData []) WrPending); KPoll []].
Definition small_payloads (h : list cobs) : bool :=
  forallb (fun x => match x with XRecv _ m => forallb (fun b => b <? 256) (m_payload m) | _ => true end) h.
Lemma small_received h : small_payloads h = true -> bytes_received h.
Proof.
  intros H e m Hi. unfold small_payloads in H. rewrite forallb_forall in H. specialize (H _ Hi). cbn in H.
  apply Forall_forall. intros b Hb. rewrite forallb_forall in H. apply N.ltb_lt. now apply H.
Qed.
Fixpoint before_data (acc h : list cobs) : list cobs * list cobs :=
  match h with
  | XSent m :: h' => if m_service m =? 5 then (acc, h') else before_data (acc ++ [XSent m]) h'
  | x :: h' => before_data (acc ++ [x]) h'
  | [] => (acc, [])
  end.
Lemma send_case :
  exists k h, connection 0 race_id view9 view9 send_events = (k, h) /\ bytes_received h /\
    map (fun m => (m_service m, m_session m, m_payload m)) (tl (sent h)) =
    [(5, 7, [1; 2]);
     (0, 0, [0; 1; 0; 12; 0; 0; 0; 7; 0; 0; 0; 1]);
     (0, 0, [0; 2; 0; 5; 0; 0; 0; 8; 0; 0; 0; 3]);
     (0, 0, [0; 3; 0; 5; 0; 0; 0; 7; 0; 0; 0; 0])] /\
    exists h1 h2, h = h1 ++ XSent {| m_service := 5; m_session := 7; m_payload := [1; 2] |} :: h2 /\ asked_for h1 5 7.
Proof.
  exists (fst (connection 0 race_id view9 view9 send_events)), (snd (connection 0 race_id view9 view9 send_events)).
  split; [apply surjective_pairing|]. split; [apply small_received; vm_compute; reflexivity|]. split; [vm_compute; reflexivity|].
  exists (fst (before_data [] (snd (connection 0 race_id view9 view9 send_events)))), (snd (before_data [] (snd (connection 0 race_id view9 view9 send_events)))).
  split; [vm_compute; reflexivity|].
  exists (env0 view9), (connect_msg 0), 50. split; [vm_compute; tauto|]. split; [reflexivity|].
  apply (SM_connect 50 5 7); reflexivity.
Qed.
