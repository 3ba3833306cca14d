(** Proof of C145. *)
From Coq Require Import NArith ZArith List Bool Lia ZifyBool ZifyNat ZifyN.
From Verif.Model Require Import Bytes Frame Service Control Alist Session Manager Client.
From Verif.Spec Require Import IdsSpec.
Import ListNotations.
Local Open Scope N_scope.

(** The counter goes from [f] to [f'] while messages with the given numbers are made. *)
Inductive counts : N -> list N -> N -> Prop :=
| counts_none f : counts f [] f
| counts_one f l f' : counts ((f + 1) mod 2 ^ 64) l f' -> counts f (f mod 65536 :: l) f'.

Lemma counts_app f a g b h : counts f a g -> counts g b h -> counts f (a ++ b) h.
Proof. intros A B. induction A; [exact B|]. cbn [app]. constructor. now apply IHA. Qed.
Lemma counts_next f : counts f [f mod 65536] ((f + 1) mod 2 ^ 64).
Proof. constructor. constructor. Qed.

Lemma next_mod f n : ((f + 1) mod 2 ^ 64 + n) mod 65536 = (f + (n + 1)) mod 65536.
Proof.
  change (2 ^ 64) with (65536 * 281474976710656). rewrite N.mod_mul_r by lia.
  rewrite <- N.add_assoc, (N.add_comm _ n), N.add_assoc, N.add_comm, (N.mul_comm 65536), N.add_comm, N.mod_add by lia.
  rewrite N.add_mod_idemp_l by lia. f_equal. lia.
Qed.
Lemma counts_nth f l f' : counts f l f' -> forall n x, nth_error l n = Some x -> x = (f + N.of_nat n) mod 65536.
Proof.
  induction 1 as [|f l f' C IH]; intros n x E; [destruct n; discriminate E|]. destruct n as [|n]; cbn [nth_error] in E.
  - injection E as <-. now rewrite N.add_0_r.
  - rewrite (IH n x E), next_mod. f_equal. lia.
Qed.

Lemma number_cmsg m : cm_id m < 65536 -> number_of (amsg_of_cmsg m) = cm_id m.
Proof.
  intros L. unfold number_of, amsg_of_cmsg, amsg_new, cmsg_encode. cbn [m_payload]. change (to_be 2 (cm_id m)) with [cm_id m / 256 mod 256; cm_id m mod 256]. cbn [app].
  rewrite (N.mod_small (cm_id m / 256)) by (apply N.div_lt_upper_bound; lia). symmetry. rewrite N.mul_comm. rewrite N.mul_comm. apply N.div_mod. lia.
Qed.

Definition made_m (o : list mobs) : list N := made (map XMgr o).
Lemma made_app a b : made (a ++ b) = made a ++ made b.
Proof. apply flat_map_app. Qed.
Lemma made_m_app a b : made_m (a ++ b) = made_m a ++ made_m b.
Proof. unfold made_m. rewrite map_app. apply made_app. Qed.

Definition acks_made (o : list sobs) : list N := flat_map (fun y => match y with SentAck m => [cm_id m] | _ => [] end) o.
Lemma acks_app a b : acks_made (a ++ b) = acks_made a ++ acks_made b.
Proof. apply flat_map_app. Qed.

Lemma take_counts f s : let '(_, _, f', o) := sess_take f s in counts f (acks_made o) f'.
Proof.
  unfold sess_take. destruct (0 <? s_written s); [unfold next_id; cbn; apply counts_next|]. cbv zeta.
  destruct (firstn _ _); [|apply counts_none]. destruct (s_closed _); [destruct (s_error _)|]; apply counts_none.
Qed.

Lemma step_counts s e : (forall f, e <> ETake f) -> acks_made (snd (sess_step s e)) = [].
Proof.
  intros N. destruct e as [n|p|f| | | |r w| |]; cbn [sess_step].
  - reflexivity.
  - unfold sess_push. destruct (s_closed s); [reflexivity|]. destruct (_ <? _); reflexivity.
  - exfalso. exact (N f eq_refl).
  - reflexivity.
  - destruct (s_phase s); reflexivity.
  - destruct (s_phase s); reflexivity.
  - unfold transport_poll. destruct (s_phase s); try reflexivity. destruct (s_closed _); [reflexivity|].
    destruct (poll_read_input _ r) as [[rr s1] o1] eqn:E1. destruct (poll_write_output s1 w) as [[rw s2] o2] eqn:E2. cbn [snd]. rewrite acks_app.
    assert (A : acks_made o1 = []).
    { unfold poll_read_input in E1. destruct (s_closed _); [injection E1 as _ _ <-; reflexivity|].
      destruct (_ <=? _); [injection E1 as _ _ <-; reflexivity|]. destruct r as [|[|b0 b]|]; injection E1 as _ _ <-; reflexivity. }
    assert (B : acks_made o2 = []).
    { unfold poll_write_output in E2. destruct (s_output s1); [destruct (s_closed s1); injection E2 as _ _ <-; reflexivity|]. destruct w; injection E2 as _ _ <-; reflexivity. }
    now rewrite A, B.
  - destruct (s_wait_rd s); reflexivity.
  - destruct (s_wait_wr s); reflexivity.
Qed.

Lemma wake_factory g : g_factory (wake_task g) = g_factory g.
Proof. unfold wake_task. destruct (g_task g); reflexivity. Qed.

Lemma hup_number f sid code : number_of (amsg_of_cmsg (mk_hup (u16 f) sid code)) = f mod 65536.
Proof. rewrite number_cmsg; cbn [cm_id mk_hup]; unfold u16; [reflexivity|]. apply N.mod_lt. lia. Qed.

Lemma loop_counts n : forall g, let '(_, g', o) := poll_loop n g in counts (g_factory g) (made_m o) (g_factory g').
Proof.
  induction n as [|n IH]; intros g; cbn [poll_loop]; [apply counts_none|]. destruct (g_order g) as [|x rest]; [apply IH|]. cbv zeta.
  set (g0 := set_order g rest). destruct (find_sess g0 x) as [s|].
  - pose proof (take_counts (g_factory g0) s) as T. destruct (sess_take (g_factory g0) s) as [[[t s'] f'] o].
    assert (X : forall os, made_m (OSess x (ETake (g_factory g0)) o :: os) = acks_made o ++ made_m os) by reflexivity.
    destruct t as [m| | |].
    + rewrite X. change (made_m [OMsg (FromSession x) m]) with (@nil N). rewrite app_nil_r. exact T.
    + unfold create_hup, next_id. rewrite X. unfold made_m, made. cbn [map flat_map made_by app]. rewrite hup_number.
      eapply counts_app; [exact T|]. exact (counts_next f').
    + unfold create_hup, next_id. rewrite X. unfold made_m, made. cbn [map flat_map made_by app]. rewrite hup_number.
      eapply counts_app; [exact T|]. exact (counts_next f').
    + match goal with |- context [poll_loop n ?gg] => set (g2 := gg) end. specialize (IH g2). destruct (poll_loop n g2) as [[r g3] os]. rewrite X.
      eapply counts_app; [exact T|exact IH].
  - specialize (IH g0). destruct (poll_loop n g0) as [[r g3] os]. exact IH.
Qed.

Lemma mgr_counts g e : (forall f, e <> MIds f) -> counts (g_factory g) (made_m (snd (mgr_step g e))) (g_factory (fst (mgr_step g e))).
Proof.
  intros NI. assert (HQ : forall f m, number_of m = f mod 65536 -> counts f (made_m [OQueued m]) ((f + 1) mod 2 ^ 64)).
  { intros f m E. unfold made_m, made. cbn [map flat_map made_by app]. rewrite E. apply counts_next. }
  assert (HS : forall sid e0 o f, acks_made o = [] -> counts f (made_m [OSess sid e0 o]) f).
  { intros sid e0 o f E. unfold made_m, made. cbn [map flat_map made_by]. rewrite app_nil_r. unfold acks_made in E. rewrite E. apply counts_none. }
  destruct e as [get svc sid|m|sid|sid len| |sid te|f]; cbn [mgr_step].
  - unfold mgr_connect. destruct (connect_inner g get svc sid) as [[[t mac] a]|].
    + cbn [fst snd]. cbv zeta. change (g_factory (set_sess ?x ?y ?z)) with (g_factory x). rewrite wake_factory. apply counts_none.
    + unfold create_hup, next_id. cbn [fst snd]. rewrite wake_factory. cbn [g_factory set_queue set_factory]. apply HQ. apply hup_number.
  - unfold mgr_send. cbv zeta. destruct (find_sess g (m_session m)) as [s|].
    + pose proof (step_counts s (EPush (m_payload m)) ltac:(discriminate)) as A. destruct (sess_step s _) as [s' o]. cbn [fst snd] in *. apply HS. exact A.
    + unfold create_hup, next_id. cbn [fst snd]. rewrite wake_factory. cbn [g_factory set_queue set_factory]. apply HQ. apply hup_number.
  - unfold mgr_close. destruct (find_sess g sid) as [s|]; [|apply counts_none].
    pose proof (step_counts s EClose ltac:(discriminate)) as A. destruct (sess_step s _) as [s' o]. cbn [fst snd] in *.
    change [OSess sid EClose o; ORemoved sid] with ([OSess sid EClose o] ++ [ORemoved sid]). rewrite made_m_app. change (made_m [ORemoved sid]) with (@nil N). rewrite app_nil_r. apply HS. exact A.
  - unfold mgr_data_ack. destruct (find_sess g sid) as [s|]; [|apply counts_none].
    pose proof (step_counts s (EDataAck len) ltac:(discriminate)) as A. destruct (sess_step s _) as [s' o]. cbn [fst snd] in *. apply HS. exact A.
  - unfold mgr_poll. destruct (g_queue g) as [|m q]; [|apply counts_none].
    pose proof (loop_counts (length (g_order g)) g) as L. destruct (poll_loop _ g) as [[r g1] o]. destruct r; exact L.
  - destruct (find_sess g sid) as [s|]; [|apply counts_none].
    pose proof (step_counts s (sev_of te) ltac:(destruct te; discriminate)) as A. destruct (sess_step s _) as [s' o]. cbn [fst snd] in *. apply HS. exact A.
  - exfalso. exact (NI f eq_refl).
Qed.

(** ** The client *)
Definition ccounts (c : ctx) (o : list cobs) (c' : ctx) : Prop := counts (g_factory (c_mgr c)) (made o) (g_factory (c_mgr c')).
Lemma cc_nil c c' : g_factory (c_mgr c') = g_factory (c_mgr c) -> ccounts c [] c'.
Proof. unfold ccounts. intros ->. apply counts_none. Qed.
Lemma cc_app c a c1 b c2 : ccounts c a c1 -> ccounts c1 b c2 -> ccounts c (a ++ b) c2.
Proof. unfold ccounts. rewrite made_app. apply counts_app. Qed.

Lemma send_mgr t c m : c_mgr (fst (send_control t c m)) = c_mgr c /\ snd (send_control t c m) = [XQueue t m].
Proof. unfold send_control. cbn [c_task set_messages]. destruct (c_task c); split; reflexivity. Qed.

(** A message is made with the next number. *)
Lemma next_send t c c1 m : g_factory (c_mgr c1) = (g_factory (c_mgr c) + 1) mod 2 ^ 64 -> cm_id m = u16 (g_factory (c_mgr c)) -> cm_type m <> 0 ->
  ccounts c (snd (send_control t c1 m)) (fst (send_control t c1 m)).
Proof.
  intros A B C. destruct (send_mgr t c1 m) as [D ->]. unfold ccounts. rewrite D, A. unfold made. cbn [flat_map made_by]. destruct (N.eqb_spec (cm_type m) 0); [contradiction|].
  cbn [app]. rewrite B. apply counts_next.
Qed.

Lemma lift_counts c e : (forall f, e <> MIds f) -> ccounts c (snd (lift_mgr c (mgr_step (c_mgr c) e))) (fst (lift_mgr c (mgr_step (c_mgr c) e))).
Proof. intros N. pose proof (mgr_counts (c_mgr c) e N) as H. unfold lift_mgr. destruct (mgr_step (c_mgr c) e) as [g o]. exact H. Qed.

Lemma control_counts t e c m : let '(_, c', o) := process_control t e c m in ccounts c o c'.
Proof.
  unfold process_control.
  assert (EST : forall r, ccounts c (snd r) (fst r) ->
            let '(_, c', o) := (if c_established c then (@None ekind, fst r, snd r) else (Some OtherError, c, [])) in ccounts c o c').
  { intros r H. destruct (c_established c); [exact H|now apply cc_nil]. }
  assert (M : forall (e0 : mev), (forall f, e0 <> MIds f) -> let '(_, c', o) := (if c_established c then (@None ekind, fst (lift_mgr c (mgr_step (c_mgr c) e0)), snd (lift_mgr c (mgr_step (c_mgr c) e0))) else (Some OtherError, c, [])) in ccounts c o c').
  { intros e0 N0. apply EST. now apply lift_counts. }
  destruct (message_type (cm_type m)).
  all: try (destruct (cm_body m); exact (counts_none _)); try exact (counts_none _).
  all: try (destruct (cm_body m); try exact (counts_none _)).
  all: try exact (M (MConnect _ _ _) ltac:(discriminate)).
  all: try exact (M (MDataAck _ _) ltac:(discriminate)).
  all: try exact (M (MClose _) ltac:(discriminate)).
  all: try (apply EST; unfold c_next_id, next_id; apply next_send; [reflexivity|reflexivity|discriminate]).
  all: try (apply EST; match goal with |- ccounts _ (snd (send_control ?a ?b ?d)) _ => destruct (send_mgr a b d) as [X Y]; unfold ccounts; rewrite X, Y; apply counts_none end).
  all: try (apply EST; cbn [fst snd]; apply counts_none).
  all: try (apply EST; cbv zeta; cbn [c_task set_redirect]; destruct (c_task c); now apply cc_nil).
  unfold process_ack. destruct (c_acks c) as [|[t0 ex] rest]; [now apply cc_nil|]. cbv zeta.
  destruct (cm_id m =? ex); [|now apply cc_nil]. unfold handshake_ack.
  repeat match goal with |- context [if ?b then _ else _] => destruct b end; now apply cc_nil.
Qed.

Lemma message_counts t e c m : let '(_, c', o) := process_message t e c m in ccounts c o c'.
Proof.
  unfold process_message. destruct (is_closed c); [now apply cc_nil|].
  assert (R : forall o c', ccounts c o c' -> ccounts c (XRecv e m :: o) c') by (intros o c' H; exact H).
  destruct (m_service m =? 0).
  - destruct (cmsg_from_bytes (m_payload m)) as [cm| |].
    + pose proof (control_counts t e c cm) as H. destruct (process_control t e c cm) as [[r c1] o]. exact (R _ _ H).
    + now apply (cc_nil c c).
    + now apply (cc_nil c c).
  - destruct (c_established c); [|now apply (cc_nil c c)].
    pose proof (lift_counts c (MSend m) ltac:(discriminate)) as H. cbn [mgr_step] in H. destruct (lift_mgr c (mgr_send (c_mgr c) m)) as [c1 o]. exact H.
Qed.

Lemma feed_counts c i : let '(_, c', o) := feed_item c i in ccounts c o c'.
Proof. destruct i as [t e m| |]; cbn [feed_item]; [apply message_counts|now apply cc_nil|now apply cc_nil]. Qed.

Lemma poll_counts c : let '(_, c', o) := ctx_poll c in ccounts c o c'.
Proof.
  unfold ctx_poll. destruct (is_closed c); [now apply cc_nil|]. destruct (c_messages c); [|now apply cc_nil].
  pose proof (mgr_counts (c_mgr c) MPoll ltac:(discriminate)) as H. cbn [mgr_step] in H. destruct (mgr_poll (c_mgr c)) as [g o]. destruct (polled_msg o); exact H.
Qed.

Lemma loop_items_counts items : forall c, let '(_, c', o) := client_loop c items in ccounts c o c'.
Proof.
  induction items as [|i items IH]; intros c; cbn [client_loop]; pose proof (poll_counts c) as P; destruct (ctx_poll c) as [[p c1] o1].
  - destruct p; exact P.
  - destruct p; try exact P. pose proof (feed_counts c1 i) as F. destruct (feed_item c1 i) as [[r c2] o2]. destruct r; [eapply cc_app; eassumption|].
    specialize (IH c2). destruct (client_loop c2 items) as [[p' c3] o3]. eapply cc_app; [exact P|]. eapply cc_app; eassumption.
Qed.

Lemma client_counts c items : let '(_, c', o) := client_poll c items in ccounts c o c'.
Proof.
  destruct items as [|i items]; cbn [client_poll]; [apply loop_items_counts|]. pose proof (feed_counts c i) as F. destruct (feed_item c i) as [[r c1] o1].
  destruct r; [exact F|]. pose proof (loop_items_counts items c1) as L. destruct (client_loop c1 items) as [[p c2] o2]. eapply cc_app; eassumption.
Qed.

Lemma time_counts t c v0 v1 v2 : let '(_, c', o) := time_event t c v0 v1 v2 in ccounts c o c'.
Proof.
  unfold time_event. destruct (c_established c); [|now apply cc_nil].
  assert (A : ccounts c (snd (if Z.leb PING_PERIOD (t - c_last_ping c) then send_ping t c else (c, []))) (fst (if Z.leb PING_PERIOD (t - c_last_ping c) then send_ping t c else (c, [])))).
  { destruct (Z.leb _ _); [|now apply cc_nil]. unfold send_ping, c_next_id, next_id, send_unconfirmed.
    match goal with |- context [send_control ?a ?b ?d] => pose proof (next_send a c b d eq_refl eq_refl ltac:(discriminate)) as H; destruct (send_control a b d) as [c2 o2] end. exact H. }
  destruct (if Z.leb PING_PERIOD (t - c_last_ping c) then send_ping t c else (c, [])) as [c1 o1]. cbn [fst snd] in A.
  assert (B : ccounts c1 (snd (if Z.leb UPDATE_CHECK_PERIOD (t - c_last_check c1) then check_for_updates t c1 v0 v1 v2 else (c1, [])))
                (fst (if Z.leb UPDATE_CHECK_PERIOD (t - c_last_check c1) then check_for_updates t c1 v0 v1 v2 else (c1, [])))).
  { destruct (Z.leb _ _); [|now apply cc_nil]. unfold check_for_updates. destruct (_ =? _); [now apply cc_nil|]. unfold send_update, c_next_id, next_id.
    match goal with |- context [send_control ?a ?b ?d] => pose proof (next_send a c1 b d eq_refl eq_refl ltac:(discriminate)) as H; destruct (send_control a b d) as [c2 o2] end. exact H. }
  destruct (if Z.leb UPDATE_CHECK_PERIOD (t - c_last_check c1) then check_for_updates t c1 v0 v1 v2 else (c1, [])) as [c2 o2]. cbn [fst snd] in B.
  eapply cc_app; eassumption.
Qed.

Lemma conn_counts k e : ccounts (k_ctx k) (snd (conn_step k e)) (k_ctx (fst (conn_step k e))).
Proof.
  unfold conn_step. destruct (k_result k); [now apply cc_nil|]. destruct e as [items|t v0 v1 v2| |sid te].
  - pose proof (client_counts (k_ctx k) items) as H. destruct (client_poll (k_ctx k) items) as [[p c1] o].
    destruct p; cbn [fst snd k_ctx]; try exact H. unfold ccounts. rewrite made_app. change (made [XSent m]) with (@nil N). rewrite app_nil_r. exact H.
  - destruct (is_closed (k_ctx k)); [now apply cc_nil|]. pose proof (time_counts t (k_ctx k) v0 v1 v2) as H. destruct (time_event t (k_ctx k) v0 v1 v2) as [[r c1] o]. exact H.
  - now apply cc_nil.
  - pose proof (lift_counts (k_ctx k) (MTransport sid te) ltac:(discriminate)) as H. destruct (lift_mgr (k_ctx k) (mgr_step (c_mgr (k_ctx k)) (MTransport sid te))) as [c1 o]. exact H.
Qed.

Lemma run_counts es : forall k, ccounts (k_ctx k) (snd (conn_run k es)) (k_ctx (fst (conn_run k es))).
Proof.
  induction es as [|e es IH]; intros k; [now apply cc_nil|]. cbn [conn_run]. pose proof (conn_counts k e) as H. destruct (conn_step k e) as [k1 o1].
  specialize (IH k1). destruct (conn_run k1 es) as [k2 o2]. eapply cc_app; eassumption.
Qed.

Lemma numbered t i v1 v2 es k h : connection t i v1 v2 es = (k, h) ->
  forall n x, nth_error (made h) n = Some x -> x = N.of_nat n mod 65536.
Proof.
  intros H n x E. unfold connection, conn_new in H.
  assert (A : counts 0 (made (snd (ctx_new t i v1 v2))) (g_factory (c_mgr (fst (ctx_new t i v1 v2))))).
  { unfold ctx_new, mk_register. destruct (id_gateway i); exact (counts_next 0). }
  destruct (ctx_new t i v1 v2) as [c o]. cbn [fst snd] in A. pose proof (run_counts es {| k_ctx := c; k_result := None |}) as R.
  destruct (conn_run {| k_ctx := c; k_result := None |} es) as [k' o']. injection H as <- <-. cbn [fst snd k_ctx] in R. unfold ccounts in R.
  rewrite made_app in E. pose proof (counts_app _ _ _ _ _ A R) as C. pose proof (counts_nth _ _ _ C n x E) as Z. rewrite N.add_0_l in Z. exact Z.
Qed.

Lemma numbers_apart t i v1 v2 es k h : connection t i v1 v2 es = (k, h) ->
  forall (n d : nat) (x : N), nth_error (made h) n = Some x -> nth_error (made h) (n + S d) = Some x -> 65536 <= N.of_nat (S d).
Proof.
  intros H n d x A B. apply (numbered _ _ _ _ _ _ _ H) in A. apply (numbered _ _ _ _ _ _ _ H) in B. rewrite A in B.
  assert (D : N.of_nat (n + S d) = N.of_nat n + N.of_nat (S d)) by lia. rewrite D in B. clear - B.
  pose proof (N.div_mod (N.of_nat n) 65536 ltac:(lia)). pose proof (N.div_mod (N.of_nat n + N.of_nat (S d)) 65536 ltac:(lia)). lia.
Qed.
