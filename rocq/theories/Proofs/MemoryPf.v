(** Bounds on the buffers of a connection. *)
From Coq Require Import NArith ZArith List Bool Lia ZifyBool ZifyNat ZifyN.
From Verif.Model Require Import Bytes Frame Service Control Alist Session Manager Client Wire.
From Verif.Spec Require Import FrameSpec SessionSpec ManagerSpec ClientSpec WireSpec MemorySpec.
From Verif.Proofs Require Import BytesFacts FrameProofs SessionProofs SessionPropsPf ManagerProofs ManagerPropsPf ClientProofs ClientInv ClientRun
  ClientPropsPf2 WirePf WireRun WireFinal.
Import ListNotations.
Local Open Scope N_scope.

(** ** The read buffer *)
Definition small (L : N) (s : bytes) : Prop :=
  forall ms s' p x, parsed s ms s' -> s' = p ++ x -> amsg_decode p = DMore -> nlen p < L.

Lemma small_parsed L s ms s' : small L s -> parsed s ms s' -> small L s'.
Proof. intros H P ms' t p x P' E D. eapply H; [eapply parsed_trans; eassumption|exact E|exact D]. Qed.
Lemma small_prefix L s x : small L (s ++ x) -> small L s.
Proof.
  intros H ms s' p y P E D. apply (H ms (s' ++ x) p (y ++ x)); [apply parsed_app; exact P| |exact D].
  rewrite E, <- app_assoc. reflexivity.
Qed.
Definition few (R : N) (sock : list sread) : Prop := Forall (fun r => match r with SData b => nlen b <= R | SError => True end) sock.

Lemma decode_buf w x w' L R : framed_decode w = Some (x, w') -> nlen (f_buf w) < L + R -> nlen (f_buf w') < L + R.
Proof.
  unfold framed_decode. destruct (f_errored w); [intros E; injection E as <- <-; auto|].
  destruct (f_readable w); [|discriminate]. destruct (amsg_decode (f_buf w)) as [| | |m rest] eqn:D.
  - destruct (f_eof w); [|discriminate]. destruct (f_buf w) eqn:B; intros E; injection E as <- <-; cbn [f_buf]; auto.
  - intros E; injection E as <- <-; auto.
  - intros E; injection E as <- <-; auto.
  - intros E; injection E as <- <-. cbn [f_buf]. apply decode_consumes in D. unfold nlen. intros. unfold bytes in *. lia.
Qed.

Lemma next_buf L R : forall sock w x w' sock', framed_next w sock = (x, w', sock') -> winv w -> small L (rem w sock) -> few R sock ->
  nlen (f_buf w) < L + R -> nlen (f_buf w') < L + R /\ few R sock'.
Proof.
  induction sock as [|r sock IH]; intros w x w' sock' H Hw Hs Hf Hb; cbn [framed_next] in H;
    (destruct (framed_decode w) as [[y v]|] eqn:D; [injection H as <- <- <-; split; [eapply decode_buf; eassumption|exact Hf]|]);
    apply decode_go in D as [Er D].
  - injection H as <- <- <-. auto.
  - assert (S0 : nlen (f_buf w) < L).
    { eapply (Hs [] (rem w (r :: sock))); [constructor|reflexivity|auto]. }
    inversion Hf as [|? ? Hr Hf']; subst. destruct r as [b|].
    + assert (Go : forall e, framed_next {| f_buf := f_buf w ++ b; f_readable := true; f_eof := e; f_errored := false |} sock = (x, w', sock') ->
        nlen (f_buf w') < L + R /\ few R sock').
      { intros e G. eapply IH; [exact G|left; reflexivity| |exact Hf'|].
        - unfold rem in *. cbn [f_buf]. change (sock_bytes (SData b :: sock)) with (b ++ sock_bytes sock) in Hs. rewrite app_assoc in Hs. exact Hs.
        - cbn [f_buf]. unfold nlen in *. rewrite app_length. lia. }
      destruct b as [|b0 b].
      * destruct (f_eof w); [injection H as <- <- <-; auto|]. rewrite app_nil_r in Go. eapply Go. exact H.
      * eapply Go. exact H.
    + injection H as <- <- <-. auto.
Qed.

Lemma loop_buf L R clock : forall fuel n c w sock p c' o w' sock',
  wire_loop fuel clock n c w sock = Some (p, c', o, w', sock') -> is_closed c = true \/ winv w -> small L (rem w sock) -> few R sock ->
  nlen (f_buf w) < L + R -> nlen (f_buf w') < L + R /\ few R sock'.
Proof.
  induction fuel as [|f IH]; intros n c w sock p c' o w' sock' H Hw Hs Hf Hb; [discriminate|].
  cbn [wire_loop] in H. destruct (ctx_poll c) as [[p1 c1] o1] eqn:P1.
  destruct p1; try (injection H as <- <- <- <- <-; auto).
  destruct (poll_pending _ _ _ P1) as [Nc Nc1]. destruct Hw as [Hw|Hw]; [congruence|].
  destruct (framed_next w sock) as [[x w1] sock1] eqn:F.
  destruct (next_buf L R _ _ _ _ _ F Hw Hs Hf Hb) as [B1 F1].
  destruct (item_of clock n x) as [i|] eqn:Hi; [|injection H as <- <- <- <- <-; auto].
  destruct (feed_item c1 i) as [[r c2] o2] eqn:Fi. destruct r as [k|]; [injection H as <- <- <- <- <-; auto|].
  destruct (wire_loop f clock (S n) c2 w1 sock1) as [[[[[p' c3] o3] w2] sock2]|] eqn:Lo; [|discriminate].
  injection H as <- <- <- <- <-. eapply IH; [exact Lo| | | |]; auto.
  - exact (feed_end _ _ _ _ _ _ _ _ _ _ _ _ F Hi Fi eq_refl).
  - eapply small_parsed; [exact Hs|]. exact (next_parsed _ _ _ _ _ _ _ _ F Hi).
Qed.

Lemma poll_buf L R clock c w sock p c' o w' sock' :
  wire_poll clock c w sock = Some (p, c', o, w', sock') -> winv w -> small L (rem w sock) -> few R sock ->
  nlen (f_buf w) < L + R -> nlen (f_buf w') < L + R /\ few R sock'.
Proof.
  intros H Hw Hs Hf Hb. unfold wire_poll in H. destruct (framed_next w sock) as [[x w1] sock1] eqn:F.
  set (fuel := (length (f_buf w) + length (sock_bytes sock) + 3)%nat) in *. clearbody fuel.
  destruct (next_buf L R _ _ _ _ _ F Hw Hs Hf Hb) as [B1 F1].
  destruct (item_of clock O x) as [i|] eqn:Hi.
  - destruct (feed_item c i) as [[r c1] o1] eqn:Fi. destruct r as [k|]; [injection H as <- <- <- <- <-; auto|].
    destruct (wire_loop fuel clock 1 c1 w1 sock1) as [[[[[p' c3] o3] w2] sock2]|] eqn:Lo; [|discriminate].
    injection H as <- <- <- <- <-. eapply loop_buf; [exact Lo| | | |]; auto.
    + exact (feed_end _ _ _ _ _ _ _ _ _ _ _ _ F Hi Fi eq_refl).
    + eapply small_parsed; [exact Hs|]. exact (next_parsed _ _ _ _ _ _ _ _ F Hi).
  - destruct x; cbn in Hi; try discriminate. pose proof (next_step _ _ _ _ _ F) as (A & B & C).
    eapply loop_buf; [exact H| | | |]; auto.
    + right. right. right. auto.
    + rewrite A. exact Hs.
Qed.

Lemma receive_buf L R t i v1 v2 es : forall q h, wire_connection t i v1 v2 es = Some (q, h) -> reads_at_most R es -> 0 < L ->
  small L (arrived es) -> nlen (f_buf (q_in q)) < L + R /\ few R (q_sock q).
Proof.
  induction es as [|e es IH] using rev_ind; intros q h H Hr HL Hs.
  - unfold wire_connection in H. destruct (conn_new t i v1 v2) as [k o]. cbn [wire_run] in H. injection H as <- <-.
    cbn [q_in framed_new f_buf q_sock]. split; [unfold nlen; cbn [length]; lia|constructor].
  - apply wire_snoc in H as (q1 & h1 & o & H1 & S & ->).
    assert (Hr1 : reads_at_most R es) by (intros b Hb; apply Hr, in_or_app; auto).
    rewrite arrived_app in Hs. destruct (IH _ _ H1 Hr1 HL (small_prefix _ _ _ Hs)) as [B F].
    pose proof (wire_connection_ok _ _ _ _ _ _ _ H1) as [_ P W _].
    destruct e as [r|clock| |n|tt u0 u1 u2| |sid te]; cbn [wire_step] in S.
    + injection S as <- <-. cbn [q_in q_sock]. split; [exact B|]. apply Forall_app. split; [exact F|]. constructor; [|constructor].
      destruct r as [b|]; [|exact Logic.I]. apply Hr, in_or_app. right. left. reflexivity.
    + destruct (k_result (q_conn q1)) eqn:Kr; [injection S as <- <-; auto|]. destruct (q_item q1); [injection S as <- <-; auto|].
      destruct (wire_poll clock (k_ctx (q_conn q1)) (q_in q1) (q_sock q1)) as [[[[[p c] o1] w] sock]|] eqn:Po; [|discriminate].
      assert (G : nlen (f_buf w) < L + R /\ few R sock).
      { eapply poll_buf; [exact Po|auto| |exact F|exact B].
        apply small_prefix in Hs. eapply small_parsed; [exact Hs|exact P]. }
      destruct p; injection S as <- <-; exact G.
    + destruct (q_item q1); [destruct (_ <? _)|]; injection S as <- <-; auto.
    + injection S as <- <-; auto.
    + destruct (conn_step (q_conn q1) (KTick tt u0 u1 u2)); injection S as <- <-; auto.
    + destruct (conn_step (q_conn q1) KSinkFailed); injection S as <- <-; auto.
    + destruct (conn_step (q_conn q1) (KTransport sid te)); injection S as <- <-; auto.
Qed.

Lemma small_any s : wf_bytes s -> small (2 ^ 32 + 10) s.
Proof.
  intros Hw ms s' p x P E D. apply parsed_reads in P as [_ Hw']; [|exact Hw]. subst s'.
  assert (Hp : wf_bytes p) by (unfold wf_bytes in *; now apply Forall_app in Hw').
  rewrite (decode_eq_reading _ Hp) in D. unfold frame_reading in D.
  do 11 (destruct p as [|? p]; [unfold nlen; cbn [length]; lia|]).
  destruct (n =? 2); [|discriminate]. cbv zeta in D. unfold wf_bytes in Hp.
  repeat match goal with H : Forall _ (_ :: _) |- _ => inversion H; clear H; subst end.
  destruct (N.ltb_spec (nlen p) (n6 * 16777216 + n7 * 65536 + n8 * 256 + n9)) as [Q|Q]; [|discriminate].
  unfold nlen in *. cbn [length]. change (2 ^ 32) with 4294967296. lia.
Qed.

Lemma small_frames M s : frames_at_most M s -> small (11 + M) s.
Proof.
  intros (ms & rest & E & F) ms1 s' p x P. revert ms rest E F p x. induction P as [b|b m r ms1 s' D P IH]; intros ms rest E F p x Es Dp.
  - subst b. destruct ms as [|m ms]; cbn [map concat] in E.
    + apply app_eq_nil in E as [E _]. apply app_eq_nil in E as [-> _]. unfold nlen; cbn [length]; lia.
    + inversion F as [|? ? [Fw Fm] _]; subst.
      destruct (N.lt_ge_cases (nlen p) (11 + M)) as [|G]; [assumption|exfalso].
      assert (Lf : (length (frame_layout m) <= length p)%nat).
      { unfold frame_layout. rewrite app_length. cbn [length]. unfold nlen in *. lia. }
      rewrite <- (encode_layout _ Fw) in E, Lf.
      assert (Ep : p = amsg_encode m ++ skipn (length (amsg_encode m)) p).
      { rewrite <- (firstn_skipn (length (amsg_encode m)) p) at 1. f_equal.
        rewrite <- app_assoc in E. apply (f_equal (firstn (length (amsg_encode m)))) in E.
        rewrite firstn_app_le in E by exact Lf. rewrite E, firstn_app, Nat.sub_diag, firstn_all. cbn [firstn]. apply app_nil_r. }
      rewrite Ep, (decode_encode _ _ Fw) in Dp. discriminate.
  - destruct ms as [|m' ms]; cbn [map concat] in E.
    + apply app_eq_nil in E as [-> _]. discriminate.
    + inversion F as [|? ? [Fw Fm] F']; subst. rewrite <- (encode_layout _ Fw) in E.
      pose proof (decode_app _ rest _ _ D) as D'. rewrite E, (decode_encode _ _ Fw) in D'. injection D' as _ Er.
      eapply IH; [symmetry; exact Er|exact F'|reflexivity|exact Dp].
Qed.

Lemma receive_frames t i v1 v2 es q h R M : wire_connection t i v1 v2 es = Some (q, h) -> reads_at_most R es -> frames_at_most M (arrived es) ->
  nlen (f_buf (q_in q)) < 11 + M + R.
Proof. intros H Hr Hf. eapply receive_buf; [exact H|exact Hr|lia|]. now apply small_frames. Qed.

Lemma receive_any t i v1 v2 es q h R : wire_connection t i v1 v2 es = Some (q, h) -> reads_at_most R es -> wf_bytes (arrived es) ->
  nlen (f_buf (q_in q)) < 2 ^ 32 + 10 + R.
Proof. intros H Hr Hf. eapply receive_buf; [exact H|exact Hr|lia|]. now apply small_any. Qed.

(** ** A large frame *)
Definition big_header : bytes := [2; 0; 0; 0; 0; 0; 0; 255; 255; 255; 255].
Definition one_by_one (b : bytes) : list sread := map (fun x => SData [x]) b.

Lemma big_more n p x : (n < 2 ^ 32 - 1)%N -> big_header ++ repeat 0 (N.to_nat n) = p ++ x -> amsg_decode p = DMore.
Proof.
  intros Hn E.
  assert (Hw : wf_bytes (p ++ x)).
  { rewrite <- E. unfold wf_bytes. apply Forall_app. split; [repeat constructor|]. apply Forall_forall. intros y Hy. apply repeat_spec in Hy. subst. reflexivity. }
  assert (Hp : wf_bytes p) by (unfold wf_bytes in *; now apply Forall_app in Hw).
  rewrite (decode_eq_reading _ Hp).
  assert (Len : (length p <= 11 + N.to_nat n)%nat).
  { apply (f_equal (@length N)) in E. rewrite !app_length, repeat_length in E. cbn [big_header length] in E. lia. }
  unfold frame_reading. unfold big_header in E. cbn [app] in E.
  do 11 (destruct p as [|? p]; [reflexivity|]; cbn [app] in E; injection E as <- E).
  change (2 =? 2) with true. cbv iota zeta.
  destruct (N.ltb_spec (nlen p) (255 * 16777216 + 255 * 65536 + 255 * 256 + 255)) as [|G]; [reflexivity|exfalso].
  unfold nlen in G. cbn [length] in Len. lia.
Qed.

Lemma fill_pending : forall l buf rd, (forall p x, buf ++ l = p ++ x -> amsg_decode p = DMore) ->
  framed_next {| f_buf := buf; f_readable := rd; f_eof := false; f_errored := false |} (one_by_one l) =
    (FPending, {| f_buf := buf ++ l; f_readable := false; f_eof := false; f_errored := false |}, []).
Proof.
  induction l as [|b l IH]; intros buf rd H; cbn [one_by_one map framed_next];
    unfold framed_decode; cbn [f_errored f_readable f_buf f_eof]; rewrite (H buf _ eq_refl);
    (replace (if rd then @None (fnext * framed) else None) with (@None (fnext * framed)) by (destruct rd; reflexivity)).
  - now rewrite app_nil_r.
  - fold (one_by_one l). rewrite IH.
    + now rewrite <- app_assoc.
    + intros p x E. apply (H p x). rewrite <- E, <- app_assoc. reflexivity.
Qed.

Lemma arrive_all t i v1 v2 k o l : conn_new t i v1 v2 = (k, o) ->
  wire_connection t i v1 v2 (map WArrive l) =
    Some ({| q_conn := k; q_in := framed_new; q_sock := l; q_item := None; q_buf := []; q_wire := [] |}, o).
Proof.
  intros N. induction l as [|r l IH] using rev_ind.
  - unfold wire_connection. rewrite N. cbn [map wire_run]. now rewrite app_nil_r.
  - rewrite map_app. cbn [map].
    unfold wire_connection in *. rewrite N in *. rewrite wire_run_snoc.
    destruct (wire_run _ (map WArrive l)) as [[q1 o1]|]; [|discriminate]. injection IH as -> E.
    cbn [wire_step q_conn q_in q_sock q_item q_buf q_wire]. rewrite app_nil_r, E. reflexivity.
Qed.

Lemma fresh_poll : exists k o m c o2, conn_new 0 race_id view9 view9 = (k, o) /\ ctx_poll (k_ctx k) = (PReady m, c, o2) /\
  received (o ++ o2 ++ [XSent m]) = [] /\ k_result k = None.
Proof. eexists _, _, _, _, _. split; [vm_compute; reflexivity|]. split; [vm_compute; reflexivity|]. split; vm_compute; reflexivity. Qed.

Lemma incomplete_kept l clock : (forall p x, l = p ++ x -> amsg_decode p = DMore) ->
  exists q h, wire_connection 0 race_id view9 view9 (map WArrive (one_by_one l) ++ [WNext clock]) = Some (q, h) /\
    k_result (q_conn q) = None /\ received h = [] /\ f_buf (q_in q) = l.
Proof.
  intros Hl. destruct fresh_poll as (k & o & m & c & o2 & N & P & R & Kr).
  pose proof (arrive_all _ _ _ _ _ _ (one_by_one l) N) as A. apply (wire_app _ _ _ _ _ (WNext clock)) in A.
  cbn [wire_step q_conn q_in q_sock q_item q_buf q_wire] in A. rewrite Kr in A.
  assert (Fp := fill_pending l [] false Hl). fold framed_new in Fp. cbn [app] in Fp.
  assert (W : wire_poll clock (k_ctx k) framed_new (one_by_one l) =
    Some (PReady m, c, o2, {| f_buf := l; f_readable := false; f_eof := false; f_errored := false |}, [])).
  { unfold wire_poll. rewrite Fp. cbn [item_of]. rewrite Nat.add_comm. cbn [Nat.add wire_loop]. rewrite P. reflexivity. }
  rewrite W in A. eexists _, _. split; [exact A|]. split; [reflexivity|]. split; [exact R|reflexivity].
Qed.

Lemma big_frame n clock : n < 2 ^ 32 - 1 ->
  exists es q h, wire_connection 0 race_id view9 view9 (es ++ [WNext clock]) = Some (q, h) /\ reads_at_most 1 es /\
    k_result (q_conn q) = None /\ received h = [] /\ nlen (f_buf (q_in q)) = n + 11.
Proof.
  intros Hn. destruct (incomplete_kept _ clock (fun p x E => big_more n p x Hn E)) as (q & h & A & K & R & B).
  exists (map WArrive (one_by_one (big_header ++ repeat 0 (N.to_nat n)))), q, h. split; [exact A|]. split.
  - intros b Hb. apply in_map_iff in Hb as (r & Er & Hr). injection Er as ->. apply in_map_iff in Hr as (y & Ey & _). injection Ey as <-. reflexivity.
  - split; [exact K|]. split; [exact R|]. rewrite B. unfold nlen. rewrite app_length, repeat_length. cbn [big_header length]. lia.
Qed.

(** ** The write buffer *)
Lemma sent_tail (h o : list cobs) m : In m (sent h) -> In m (sent (h ++ o)).
Proof. rewrite sent_app. intros. apply in_or_app. auto. Qed.

Lemma send_buf t i v1 v2 es M : forall q h, wire_connection t i v1 v2 es = Some (q, h) ->
  (forall m, In m (sent h) -> nlen (m_payload m) <= M) ->
  nlen (q_buf q) < 8192 + 11 + M /\ (forall m, q_item q = Some m -> In m (sent h)).
Proof.
  induction es as [|e es IH] using rev_ind; intros q h H Hm.
  - unfold wire_connection in H. destruct (conn_new t i v1 v2) as [k o]. cbn [wire_run] in H. injection H as <- <-.
    cbn [q_buf q_item]. split; [unfold nlen; cbn [length]; lia|discriminate].
  - apply wire_snoc in H as (q1 & h1 & o & H1 & S & ->).
    destruct (IH _ _ H1) as [B It]. { intros m Hi. apply Hm. now apply sent_tail. }
    assert (It' : forall m, q_item q1 = Some m -> In m (sent (h1 ++ o))) by (intros m Hi; apply sent_tail; auto).
    destruct e as [r|clock| |n|tt u0 u1 u2| |sid te]; cbn [wire_step] in S.
    + injection S as <- <-. auto.
    + destruct (k_result (q_conn q1)) eqn:Kr; [injection S as <- <-; auto|]. destruct (q_item q1) eqn:Qi; [injection S as <- <-; rewrite Qi; auto|].
      destruct (wire_poll clock (k_ctx (q_conn q1)) (q_in q1) (q_sock q1)) as [[[[[p c] o1] w] sock]|] eqn:Po; [|discriminate S].
      destruct p; injection S as <- <-; cbn [q_buf q_item]; (split; [exact B|]); intros m0 E; try discriminate.
      injection E as <-. rewrite !sent_app. apply in_or_app. right. apply in_or_app. right. left. reflexivity.
    + destruct (q_item q1) as [m|] eqn:Qi; [|injection S as <- <-; rewrite Qi; auto].
      destruct (N.ltb_spec (nlen (q_buf q1)) BACKPRESSURE_BOUNDARY) as [Q|Q]; injection S as <- <-; [|rewrite Qi; auto].
      cbn [q_buf q_item]. split; [|discriminate]. specialize (Hm m (It' _ eq_refl)).
      unfold nlen in *. unfold amsg_encode. rewrite !app_length, header_encode_length. unfold BACKPRESSURE_BOUNDARY, HSIZE in *. lia.
    + injection S as <- <-. cbn [q_buf q_item]. split; [|exact It']. unfold nlen in *. rewrite skipn_length. lia.
    + destruct (conn_step (q_conn q1) (KTick tt u0 u1 u2)); injection S as <- <-; auto.
    + destruct (conn_step (q_conn q1) KSinkFailed); injection S as <- <-; auto.
    + destruct (conn_step (q_conn q1) (KTransport sid te)); injection S as <- <-; auto.
Qed.

(** ** The buffers of a session *)
Definition fits (C : N) (s : sess) : Prop := nlen (s_input s) < BUFFER_CAPACITY + C.
Definition modest (C : N) (e : sev) : Prop := match e with ETransport (RdData b) _ => nlen b <= C | _ => True end.

Lemma input_wake_mgr s : s_input (wake_mgr s) = s_input s.
Proof. unfold wake_mgr. destruct (s_mgr_waker s); reflexivity. Qed.
Lemma input_wake_tr s : s_input (wake_tr s) = s_input s.
Proof. unfold wake_tr. destruct (s_tr_waker s); reflexivity. Qed.
Lemma input_close s : s_input (sess_close s) = s_input s.
Proof. unfold sess_close. now rewrite input_wake_mgr, input_wake_tr. Qed.
Lemma input_error s : s_input (sess_set_error s) = s_input s.
Proof. unfold sess_set_error. destruct (s_closed s); [reflexivity|]. now rewrite input_close. Qed.

Lemma input_write s w r s' o : poll_write_output s w = (r, s', o) -> s_input s' = s_input s.
Proof.
  unfold poll_write_output. destruct (s_output s) as [|x l].
  - destruct (s_closed s); intros E; injection E as <- <- <-; reflexivity.
  - destruct w; intros E; injection E as <- <- <-; rewrite ?input_wake_mgr, ?input_error; reflexivity.
Qed.
Lemma input_read C s rd r s' o : poll_read_input s rd = (r, s', o) -> (forall b, rd = RdData b -> nlen b <= C) -> fits C s -> fits C s'.
Proof.
  unfold poll_read_input, fits. destruct (s_closed s); [intros E; injection E as <- <- <-; auto|].
  destruct (N.leb_spec BUFFER_CAPACITY (nlen (s_input s))) as [Q|Q]; [intros E; injection E as <- <- <-; auto|].
  assert (Same : forall s1, s_input s1 = s_input s -> nlen (s_input (match s_input s1 with [] => s1 | _ => wake_mgr s1 end)) < BUFFER_CAPACITY + C).
  { intros s1 E. destruct (s_input s1) eqn:E1; [|rewrite input_wake_mgr]; rewrite E1, E; lia. }
  destruct rd as [|b|]; intros E; injection E as <- <- <-; intros Hb Hf; try exact Hf.
  - specialize (Hb b eq_refl). destruct b as [|b0 b].
    + apply Same. now rewrite input_close.
    + set (s1 := with_input _ _).
      assert (L1 : nlen (s_input s1) < BUFFER_CAPACITY + C).
      { change (s_input s1) with (s_input s ++ b0 :: b). unfold nlen in *. rewrite app_length. lia. }
      destruct (s_input s1) eqn:E1; [|rewrite input_wake_mgr]; rewrite E1; exact L1.
  - apply Same. now rewrite input_error.
Qed.

Lemma step_fits C s e : modest C e -> fits C s -> fits C (fst (sess_step s e)).
Proof.
  intros M F. destruct e as [len|p|f| | | |r w| |]; cbn [sess_step].
  - unfold fits, sess_data_ack. cbn [fst]. rewrite input_wake_mgr. exact F.
  - unfold sess_push. destruct (s_closed s); [exact F|]. destruct (_ <? _); cbn [fst]; unfold fits.
    + rewrite input_error. exact F.
    + destruct (s_output _); rewrite ?input_wake_tr; exact F.
  - destruct (sess_take f s) as [[[t s'] f'] o] eqn:E. cbn [fst]. unfold sess_take in E.
    destruct (0 <? s_written s).
    + destruct (next_id f). injection E as <- <- <- <-. exact F.
    + cbv zeta in E. set (s2 := with_input _ _) in E. set (s3 := if _ <? _ then _ else _) in E.
      assert (F3 : fits C s3).
      { unfold s3, fits. destruct (_ <? _); rewrite ?input_wake_tr; cbn [s2 with_input with_caps s_input]; unfold nlen, fits, nlen in *; rewrite skipn_length; lia. }
      destruct (firstn _ _); [destruct (s_closed s3); [destruct (s_error s3)|]|]; injection E as <- <- <- <-; exact F3.
  - unfold fits. cbn [fst]. rewrite input_close. exact F.
  - destruct (s_phase s); exact F.
  - destruct (s_phase s); try exact F. unfold fits. cbn [fst with_phase s_input]. rewrite input_error. exact F.
  - unfold transport_poll. destruct (s_phase s); try exact F. set (s0 := with_tr s _ _). change (fits C s0) in F.
    destruct (s_closed s0); [exact F|].
    destruct (poll_read_input s0 r) as [[r1 s1] o1] eqn:R. destruct (poll_write_output s1 w) as [[r2 s2] o2] eqn:W.
    cbn [fst]. assert (F1 : fits C s1). { eapply input_read; [exact R| |exact F]. intros b ->. exact M. }
    assert (F2 : fits C s2) by (unfold fits; rewrite (input_write _ _ _ _ _ W); exact F1).
    destruct (r1 || r2); exact F2.
  - destruct (s_wait_rd s); exact F.
  - destruct (s_wait_wr s); exact F.
Qed.

Lemma run_fits C es : forall s, Forall (modest C) es -> fits C s -> fits C (fst (sess_run s es)).
Proof.
  induction es as [|e es IH]; intros s M F; [exact F|]. cbn [sess_run]. inversion M; subst.
  pose proof (step_fits C s e H1 F) as F1. destruct (sess_step s e) as [s1 o1]. cbn [fst] in F1. specialize (IH s1 H2 F1).
  destruct (sess_run s1 es). exact IH.
Qed.

Lemma since_in sid h e o : In (e, o) (since_open sid h) -> In (OSess sid e o) h.
Proof.
  induction h as [|x h IH] using rev_ind; [intros []|]. rewrite since_app. intros H. apply in_or_app.
  destruct x as [s t mac a|s e' o'|s|m|from m]; cbn [since_step] in H; try (left; apply IH; exact H).
  - destruct (s =? sid); [destruct H|left; auto].
  - destruct (N.eqb_spec s sid) as [->|]; [|left; auto]. apply in_app_or in H as [H|[H|[]]]; [left; auto|]. injection H as -> ->. right. left. reflexivity.
Qed.

Lemma session_buffers t i v1 v2 es k h C sid s : connection t i v1 v2 es = (k, h) -> k_result k = None -> services_at_most C h ->
  session k sid = Some s -> nlen (s_input s) < 8192 + C /\ nlen (s_output s) <= 65536.
Proof.
  intros H R Hc Hs. destruct (connection_manager _ _ _ _ _ _ _ H R) as [mes Em].
  destruct (projection _ _ _ _ _ _ _ _ Em Hs) as [svc Hrun]. split.
  - assert (F : Forall (modest C) (map fst (since_open sid (manager_history h)))).
    { apply Forall_forall. intros e He. apply in_map_iff in He as ([e' o] & <- & Hi). apply since_in in Hi.
      cbn [fst]. destruct e' as [| | | | | |[|b|] w| |]; try exact Logic.I. cbn [modest]. apply (Hc sid b w o).
      unfold manager_history in Hi. apply in_flat_map in Hi as (x & Hx & Hi). destruct x; try destruct Hi as []; try contradiction.
      subst. exact Hx. }
    pose proof (run_fits C _ (sess_new svc sid 65536) F) as G. rewrite Hrun in G. cbn [fst] in G. apply G.
    unfold fits, nlen, BUFFER_CAPACITY. cbn [sess_new s_input length]. lia.
  - destruct (acks_exact svc sid 65536 _ _ _ ltac:(reflexivity) Hrun) as (_ & A & _). lia.
Qed.
