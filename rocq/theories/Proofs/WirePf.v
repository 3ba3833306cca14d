(** Proofs about the wire of a connection. *)
From Coq Require Import NArith ZArith List Bool Lia ZifyBool ZifyNat ZifyN.
From Verif.Model Require Import Bytes Frame Service Control Alist Session Manager Client Wire.
From Verif.Spec Require Import FrameSpec SessionSpec ManagerSpec ClientSpec WireSpec.
From Verif.Proofs Require Import BytesFacts FrameProofs FramePropsPf ClientInv ClientRun ClientPropsPf ClientPropsPf2.
Import ListNotations.
Local Open Scope N_scope.

(** ** The framed stream *)

Definition rem (w : framed) (sock : list sread) : bytes := f_buf w ++ sock_bytes sock.

Inductive parsed : bytes -> list amsg -> bytes -> Prop :=
| parsed_none b : parsed b [] b
| parsed_frame b m r ms rest : amsg_decode b = DMsg m r -> parsed r ms rest -> parsed b (m :: ms) rest.

Lemma parsed_app b ms r x : parsed b ms r -> parsed (b ++ x) ms (r ++ x).
Proof. induction 1; [constructor|]. econstructor; [apply decode_app; eassumption|exact IHparsed]. Qed.

Lemma parsed_trans a ms b ms' c : parsed a ms b -> parsed b ms' c -> parsed a (ms ++ ms') c.
Proof. induction 1; intros H'; [exact H'|]. cbn [app]. econstructor; eauto. Qed.

Definition winv (w : framed) : Prop := f_readable w = true \/ f_errored w = true \/ amsg_decode (f_buf w) = DMore.

Definition next_ok (w : framed) (sock : list sread) (x : fnext) (w' : framed) (sock' : list sread) : Prop :=
  match x with
  | FPending => rem w' sock' = rem w sock /\ sock' = [] /\ (winv w -> amsg_decode (f_buf w') = DMore)
  | FItem m => amsg_decode (rem w sock) = DMsg m (rem w' sock') /\ winv w'
  | FError => rem w' sock' = rem w sock /\ winv w'
  | FEnd => rem w' sock' = rem w sock
  end.

Lemma decode_step w sock x w' : framed_decode w = Some (x, w') -> next_ok w sock x w' sock.
Proof.
  unfold framed_decode. destruct (f_errored w) eqn:Er; [intros E; injection E as <- <-; reflexivity|].
  destruct (f_readable w) eqn:Rd; [|discriminate].
  destruct (amsg_decode (f_buf w)) as [| | |m rest] eqn:D.
  - destruct (f_eof w); [|discriminate].
    destruct (f_buf w) as [|b0 b] eqn:B; intros E; injection E as <- <-; unfold next_ok, rem, winv; cbn [f_buf f_errored]; rewrite B; auto.
  - intros E; injection E as <- <-. unfold next_ok, rem, winv; cbn [f_buf f_errored]. auto.
  - exfalso. exact (decode_no_panic _ D).
  - intros E; injection E as <- <-. unfold next_ok, rem, winv; cbn [f_buf f_readable]. split; [|auto].
    apply decode_app. exact D.
Qed.

Lemma decode_go w : framed_decode w = None -> f_errored w = false /\ (winv w -> amsg_decode (f_buf w) = DMore).
Proof.
  unfold framed_decode. destruct (f_errored w) eqn:Er; [discriminate|]. split; [reflexivity|].
  destruct (f_readable w) eqn:Rd.
  - destruct (amsg_decode (f_buf w)); try discriminate. reflexivity.
  - intros [X|[X|X]]; congruence.
Qed.

Lemma next_step : forall sock w x w' sock', framed_next w sock = (x, w', sock') -> next_ok w sock x w' sock'.
Proof.
  induction sock as [|r sock IH]; intros w x w' sock'; cbn [framed_next];
    (destruct (framed_decode w) as [[y v]|] eqn:D; [intros E; injection E as <- <- <-; apply decode_step; exact D|]);
    apply decode_go in D as [Er D].
  - intros E; injection E as <- <- <-. unfold next_ok, rem; cbn [f_buf]. auto.
  - destruct r as [b|].
    + destruct b as [|b0 b].
      * destruct (f_eof w).
        { intros E; injection E as <- <- <-. reflexivity. }
        intros E. apply IH in E.
        assert (R : rem {| f_buf := f_buf w; f_readable := true; f_eof := true; f_errored := false |} sock = rem w (SData [] :: sock)) by reflexivity.
        destruct x; unfold next_ok in *; rewrite R in E.
        -- destruct E as (A & B & C). repeat split; auto. intros _. apply C. left. reflexivity.
        -- exact E.
        -- exact E.
        -- exact E.
      * intros E. apply IH in E.
        assert (R : rem {| f_buf := f_buf w ++ b0 :: b; f_readable := true; f_eof := false; f_errored := false |} sock = rem w (SData (b0 :: b) :: sock)).
        { unfold rem. cbn [f_buf sock_bytes flat_map]. rewrite <- app_assoc. reflexivity. }
        destruct x; unfold next_ok in *; rewrite R in E.
        -- destruct E as (A & B & C). repeat split; auto. intros _. apply C. left. reflexivity.
        -- exact E.
        -- exact E.
        -- exact E.
    + intros E; injection E as <- <- <-. unfold next_ok, rem, winv; cbn [f_buf f_errored]. split; [reflexivity|auto].
Qed.

Lemma decode_not_pending w v : framed_decode w <> Some (FPending, v).
Proof.
  unfold framed_decode. destruct (f_errored w); [discriminate|]. destruct (f_readable w); [|discriminate].
  destruct (amsg_decode (f_buf w)); try discriminate. destruct (f_eof w); try discriminate. destruct (f_buf w); discriminate.
Qed.

Lemma pending_idle : forall sock w w1 s1, framed_next w sock = (FPending, w1, s1) -> f_readable w1 = false /\ f_errored w1 = false.
Proof.
  induction sock as [|r sock IH]; intros w w1 s1 F; cbn [framed_next] in F;
    (destruct (framed_decode w) as [[z v]|] eqn:D;
     [assert (z = FPending) by congruence; subst z; exfalso; exact (decode_not_pending _ _ D)|]).
  - injection F as <- _. split; reflexivity.
  - destruct r as [[|b0 b]|].
    + destruct (f_eof w); [discriminate|]. exact (IH _ _ _ F).
    + exact (IH _ _ _ F).
    + discriminate.
Qed.

(** ** Polls *)
Definition item_msgs (items : list sitem) : list amsg :=
  flat_map (fun i => match i with SMsg _ _ m => [m] | _ => [] end) items.

Lemma next_parsed clock n w sock x w' sock' i : framed_next w sock = (x, w', sock') -> item_of clock n x = Some i ->
  parsed (rem w sock) (item_msgs [i]) (rem w' sock').
Proof.
  intros H Hi. apply next_step in H. destruct x; cbn in Hi; try discriminate; injection Hi as <-; cbn [item_msgs flat_map app next_ok] in *.
  - econstructor; [apply H|constructor].
  - destruct H as [-> _]. constructor.
  - rewrite H. constructor.
Qed.

Lemma poll_received c p c' o : ctx_poll c = (p, c', o) -> received o = [].
Proof.
  unfold ctx_poll. destruct (is_closed c); [intros E; injection E as <- <- <-; reflexivity|].
  destruct (c_messages c); [|intros E; injection E as <- <- <-; reflexivity].
  destruct (mgr_poll (c_mgr c)) as [g mo]. destruct (polled_msg mo); intros E; injection E as <- <- <-; exact (received_mgr [] mo).
Qed.

Lemma poll_pending c c' o : ctx_poll c = (PPending, c', o) -> is_closed c = false /\ is_closed c' = false.
Proof.
  unfold ctx_poll. destruct (is_closed c) eqn:E0; [discriminate|]. destruct (c_messages c); [|discriminate].
  destruct (mgr_poll (c_mgr c)) as [g mo]. destruct (polled_msg mo); [discriminate|]. intros E. injection E as <- <-.
  split; [reflexivity|exact E0].
Qed.

Lemma poll_closed c : is_closed c = true -> ctx_poll c = (PEnd, c, []).
Proof. intros H. unfold ctx_poll. now rewrite H. Qed.

Lemma control_received t e c m r c' o : process_control t e c m = (r, c', o) -> received o = [].
Proof.
  intros H.
  assert (L : forall r0, received (snd (lift_mgr c r0)) = []).
  { intros [g mo]. exact (received_mgr [] mo). }
  unfold process_control in H.
  destruct (message_type (cm_type m)) eqn:T, (cm_body m) eqn:B;
    repeat match type of H with context [if c_established c then _ else _] => destruct (c_established c) end;
    try (injection H as <- <- <-; reflexivity);
    try (injection H as <- <- <-; apply L).
  all: try (destruct (process_ack e c (cm_id m) err) as [rr cc]; injection H as <- <- <-; reflexivity).
  all: try (destruct (c_next_id c) as [idd cc]; injection H as <- <- <-; reflexivity).
Qed.

Lemma feed_received c i r c' o : is_closed c = false -> feed_item c i = (r, c', o) -> map snd (received o) = item_msgs [i].
Proof.
  intros Hc H. destruct i as [t e m| |]; cbn [feed_item] in H.
  - unfold process_message in H. rewrite Hc in H. cbn [item_msgs flat_map app].
    match type of H with (match ?X with _ => _ end) = _ => destruct X as [[r0 c0] o0] eqn:X0 end.
    injection H as <- <- <-. cbn [received flat_map app]. cbn [map snd]. f_equal.
    enough (R : received o0 = []) by (unfold received in R; now rewrite R).
    destruct (m_service m =? 0).
    + destruct (cmsg_from_bytes (m_payload m)).
      * eapply control_received; eauto.
      * injection X0 as <- <- <-. reflexivity.
      * injection X0 as <- <- <-. reflexivity.
    + destruct (c_established c); [|injection X0 as <- <- <-; reflexivity].
      unfold lift_mgr in X0. destruct (mgr_send (c_mgr c) m) as [g mo]. injection X0 as <- <- <-. exact (received_mgr [] mo).
  - injection H as <- <- <-. reflexivity.
  - injection H as <- <- <-. reflexivity.
Qed.

Lemma feed_end c i r c' o clock n x w sock w' sock' : framed_next w sock = (x, w', sock') -> item_of clock n x = Some i ->
  feed_item c i = (r, c', o) -> r = None -> is_closed c' = true \/ winv w'.
Proof.
  intros H Hi Hf ->. apply next_step in H. destruct x; cbn in Hi; try discriminate; injection Hi as <-; cbn [next_ok feed_item] in *.
  - right. apply H.
  - discriminate.
  - left. injection Hf as <- <-. reflexivity.
Qed.

Definition alive (p : polled) : Prop := match p with PPending | PReady _ => True | _ => False end.

Lemma loop_rel clock : forall fuel n c w sock p c' o w' sock',
  wire_loop fuel clock n c w sock = Some (p, c', o, w', sock') -> is_closed c = true \/ winv w ->
  exists items, client_loop c items = (p, c', o) /\ parsed (rem w sock) (item_msgs items) (rem w' sock') /\
    map snd (received o) = item_msgs items /\ (alive p -> winv w') /\
    (p = PPending -> sock' = [] /\ amsg_decode (f_buf w') = DMore).
Proof.
  induction fuel as [|f IH]; intros n c w sock p c' o w' sock' H Hw; [discriminate|].
  cbn [wire_loop] in H. destruct (ctx_poll c) as [[p1 c1] o1] eqn:P1.
  pose proof (poll_received _ _ _ _ P1) as R1.
  assert (Ready : p1 <> PPending -> (p, c', o, w', sock') = (p1, c1, o1, w, sock) ->
    exists items, client_loop c items = (p, c', o) /\ parsed (rem w sock) (item_msgs items) (rem w' sock') /\
    map snd (received o) = item_msgs items /\ (alive p -> winv w') /\ (p = PPending -> sock' = [] /\ amsg_decode (f_buf w') = DMore)).
  { intros Np E. injection E as -> -> -> -> ->. exists []. cbn [client_loop]. rewrite P1.
    split; [destruct p1; try reflexivity|]. split; [constructor|]. split; [now rewrite R1|]. split.
    - intros Ha. destruct Hw as [Hw|Hw]; [|exact Hw]. rewrite (poll_closed _ Hw) in P1. injection P1 as <- <- <-. destruct Ha.
    - intros ->. congruence. }
  destruct p1; try (injection H as <- <- <- <- <-; apply Ready; [discriminate|reflexivity]).
  clear Ready. destruct (poll_pending _ _ _ P1) as [Nc Nc1].
  destruct Hw as [Hw|Hw]; [congruence|].
  destruct (framed_next w sock) as [[x w1] sock1] eqn:F.
  destruct (item_of clock n x) as [i|] eqn:Hi.
  - destruct (feed_item c1 i) as [[r c2] o2] eqn:Fi.
    pose proof (feed_received _ _ _ _ _ Nc1 Fi) as R2.
    pose proof (next_parsed _ _ _ _ _ _ _ _ F Hi) as Pa.
    destruct r as [k|].
    + injection H as <- <- <- <- <-. exists [i]. cbn [client_loop]. rewrite P1, Fi.
      split; [reflexivity|]. split; [exact Pa|]. split; [rewrite received_app, R1; exact R2|]. split; [intros []|discriminate].
    + destruct (wire_loop f clock (S n) c2 w1 sock1) as [[[[[p' c3] o3] w2] sock2]|] eqn:L; [|discriminate].
      injection H as <- <- <- <- <-.
      destruct (IH _ _ _ _ _ _ _ _ _ L (feed_end _ _ _ _ _ _ _ _ _ _ _ _ F Hi Fi eq_refl)) as (items & A & B & C & D & E).
      exists (i :: items). cbn [client_loop]. rewrite P1, Fi.
      replace (match items with | _ => client_loop c2 items end) with (client_loop c2 items) by (destruct items; reflexivity).
      rewrite A. split; [reflexivity|].
      split; [change (item_msgs (i :: items)) with (item_msgs [i] ++ item_msgs items) || idtac|].
      { replace (item_msgs (i :: items)) with (item_msgs [i] ++ item_msgs items) by (unfold item_msgs; cbn [flat_map]; now rewrite app_nil_r).
        eapply parsed_trans; eassumption. }
      split; [|split; [exact D|exact E]].
      rewrite !received_app, R1. cbn [app]. rewrite map_app, R2, C. unfold item_msgs. cbn [flat_map]. now rewrite app_nil_r.
  - injection H as <- <- <- <- <-. exists []. cbn [client_loop]. rewrite P1. split; [reflexivity|].
    destruct x; cbn in Hi; try discriminate. apply next_step in F. destruct F as (A & B & C).
    rewrite <- A. split; [constructor|]. split; [now rewrite R1|]. split; [intros _; right; right; auto|]. auto.
Qed.

Lemma poll_rel clock c w sock p c' o w' sock' :
  wire_poll clock c w sock = Some (p, c', o, w', sock') -> is_closed c = false -> winv w ->
  exists items, client_poll c items = (p, c', o) /\ parsed (rem w sock) (item_msgs items) (rem w' sock') /\
    map snd (received o) = item_msgs items /\ (alive p -> winv w') /\
    (p = PPending -> sock' = [] /\ amsg_decode (f_buf w') = DMore).
Proof.
  intros H Nc Hw. unfold wire_poll in H. destruct (framed_next w sock) as [[x w1] sock1] eqn:F.
  set (fuel := (length (f_buf w) + length (sock_bytes sock) + 3)%nat) in *. clearbody fuel.
  destruct (item_of clock O x) as [i|] eqn:Hi.
  - destruct (feed_item c i) as [[r c1] o1] eqn:Fi.
    pose proof (feed_received _ _ _ _ _ Nc Fi) as R2.
    pose proof (next_parsed _ _ _ _ _ _ _ _ F Hi) as Pa.
    destruct r as [k|].
    + injection H as <- <- <- <- <-. exists [i]. cbn [client_poll]. rewrite Fi.
      split; [reflexivity|]. split; [exact Pa|]. split; [exact R2|]. split; [intros []|discriminate].
    + destruct (wire_loop fuel clock 1 c1 w1 sock1) as [[[[[p' c3] o3] w2] sock2]|] eqn:L; [|discriminate].
      injection H as <- <- <- <- <-.
      destruct (loop_rel _ _ _ _ _ _ _ _ _ _ _ L (feed_end _ _ _ _ _ _ _ _ _ _ _ _ F Hi Fi eq_refl)) as (items & A & B & C & D & E).
      exists (i :: items). cbn [client_poll]. rewrite Fi, A. split; [reflexivity|].
      split.
      { replace (item_msgs (i :: items)) with (item_msgs [i] ++ item_msgs items) by (unfold item_msgs; cbn [flat_map]; now rewrite app_nil_r).
        eapply parsed_trans; eassumption. }
      split; [|split; [exact D|exact E]].
      rewrite received_app, map_app, R2, C. unfold item_msgs. cbn [flat_map]. now rewrite app_nil_r.
  - destruct x; cbn in Hi; try discriminate. pose proof (next_step _ _ _ _ _ F) as (A & B & C). subst sock1.
    assert (Hw1 : winv w1) by (right; right; auto).
    (* the loop polls the stream again: still nothing *)
    destruct fuel as [|f]; [discriminate|]. cbn [wire_loop] in H.
    destruct (ctx_poll c) as [[p1 c1] o1] eqn:P1. pose proof (poll_received _ _ _ _ P1) as R1.
    exists []. cbn [client_poll client_loop]. rewrite P1.
    destruct p1; try (injection H as <- <- <- <- <-; split; [reflexivity|]; rewrite <- A; split; [constructor|]; split; [now rewrite R1|]; split; [auto|discriminate]).
    destruct (framed_next w1 []) as [[y w2] s2] eqn:F2.
    assert (G : y = FPending /\ f_buf w2 = f_buf w1 /\ s2 = []).
    { assert (Rd : f_readable w1 = false /\ f_errored w1 = false).
      { eapply pending_idle; eauto. }
      destruct Rd as [Rd Re]. cbn [framed_next] in F2. unfold framed_decode in F2. rewrite Re, Rd in F2.
      injection F2 as <- <- <-. auto. }
    destruct G as (-> & Eb & ->). cbn [item_of] in H. injection H as <- <- <- <- <-.
    split; [reflexivity|].
    assert (Er : rem w2 [] = rem w1 []) by (unfold rem; now rewrite Eb). rewrite Er, <- A.
    split; [constructor|]. split; [now rewrite R1|].
    assert (Dm : amsg_decode (f_buf w2) = DMore) by (rewrite Eb; auto).
    split; [intros _; right; right; exact Dm|auto].
Qed.
