(** C82: no poll of the TLS stream panics or sleeps without a waker. C83: the address of the service is chosen in order and in
    time. C84: the certificate is checked against the host of the address. *)
From Coq Require Import String NArith ZArith List Bool Lia.
From Verif.Model Require Import Bytes Text Tls CmdLine.
From Verif.Spec Require Import TlsSpec CmdSpec.
From Verif.Proofs Require Import TlsPoll TlsRace TlsTime.
Import ListNotations.
Local Open Scope N_scope.

(** ** C82 *)

Theorem C82_read : forall T E (tr : transport T) (en : engine E) (k : waker) (room : N) (e : E) (w : world T),
  polite tr -> honest_engine en -> fits room (en_read en e room) -> sound_poll k w (poll_read tr en k room e w).
Proof. intros. now apply read_sound. Qed.
Print Assumptions C82_read.
Theorem C82_write : forall T E (tr : transport T) (en : engine E) (k : waker) (d : bytes) (e : E) (w : world T),
  polite tr -> honest_engine en -> sound_poll k w (poll_write tr en k d e w).
Proof. intros. now apply write_sound. Qed.
Print Assumptions C82_write.
Theorem C82_flush : forall T E (tr : transport T) (en : engine E) (k : waker) (e : E) (w : world T),
  polite tr -> honest_engine en -> sound_poll k w (poll_flush tr en k e w).
Proof. intros. now apply flush_sound. Qed.
Print Assumptions C82_flush.
Theorem C82_shutdown : forall T E (tr : transport T) (en : engine E) (k : waker) (e : E) (w : world T),
  polite tr -> honest_engine en -> sound_poll k w (poll_shutdown tr en k e w).
Proof. intros. now apply shutdown_sound. Qed.
Print Assumptions C82_shutdown.
(** The handshake is pending exactly until it ends. *)
Theorem C82_connect : forall T E (tr : transport T) (en : engine E) (k : waker) (c : conn E) (w : world T),
  polite tr -> honest_engine en -> c <> CEnd ->
  sound_poll k w (poll_connect tr en k c w) /\
  (forall w' c' p, poll_connect tr en k c w = (w', Some (c', p)) -> (p = Pending <-> c' <> CEnd)).
Proof. intros. now apply connect_sound. Qed.
Print Assumptions C82_connect.

(** A slow socket is not an error: while neither the socket nor OpenSSL fails, no operation does, and neither does the handshake. *)
Theorem C82_no_error : forall T E (tr : transport T) (en : engine E) (k : waker) (e : E) (w : world T),
  working tr -> innocent_engine en ->
  (forall room, no_error (poll_read tr en k room e w)) /\ (forall d, no_error (poll_write tr en k d e w)) /\
  no_error (poll_flush tr en k e w) /\ no_error (poll_shutdown tr en k e w).
Proof. intros. auto using read_no_error, write_no_error, flush_no_error, shutdown_no_error. Qed.
Print Assumptions C82_no_error.
Theorem C82_no_failure : forall T E (tr : transport T) (en : engine E) (k : waker) (c : conn E) (w : world T),
  working tr -> innocent_engine en -> unfailed c ->
  not_failed (poll_connect tr en k c w) /\ forall w' c' p, poll_connect tr en k c w = (w', Some (c', p)) -> unfailed c'.
Proof. intros. now apply connect_unfailed. Qed.
Print Assumptions C82_no_failure.

(** A socket that is not ready for the first two polls, and an engine that passes all data on *)
Definition slow : transport N :=
  {| tr_read := fun s _ n => (s + 1, if s <? 2 then Pending else Ready (IoOk (firstn (N.to_nat n) [1; 2; 3])));
     tr_write := fun s _ d => (s + 1, if s <? 2 then Pending else Ready (IoOk (nlen d)));
     tr_flush := fun s _ => (s, Ready (IoOk tt));
     tr_shutdown := fun s _ => (s, Ready (IoOk tt)) |}.
Definition plain : engine unit :=
  {| en_read := fun e n => CRead n (fun r => Done (e, match r with IoOk d => IoOk (firstn (N.to_nat n) d) | x => x end));
     en_write := fun e d => CWrite d (fun r => Done (e, r));
     en_flush := fun e => CFlush (fun r => Done (e, r));
     en_shutdown := fun e => Done (e, ShutOk);
     en_connect := fun h => CWrite h (fun r => Done (match r with IoOk _ => HsDone tt | IoErr EWouldBlock => HsBlock tt | IoErr (EOther c) => HsFailure c end));
     en_handshake := fun e => CWrite [1] (fun r => Done (match r with IoOk _ => HsDone tt | IoErr EWouldBlock => HsBlock tt | IoErr (EOther c) => HsFailure c end)) |}.
Example C82_case :
  polite slow /\ working slow /\ honest_engine plain /\ innocent_engine plain /\ fits 2 (en_read plain tt 2) /\
  (let w0 := {| w_ctx := None; w_sock := 0; w_polls := [] |} in
   match poll_connect slow plain 7 (CStart (lit "a"%string)) w0 with
   | (w1, Some (c, Pending)) =>
       w_polls w1 = [(7, true); (7, true)] /\
       match poll_connect slow plain 8 c w1 with (w2, Some (CEnd, Ready (inl tt))) => w_polls w2 = [(8, false); (7, true); (7, true)] | _ => False end
   | _ => False
   end).
Proof.
  split; [|split; [|split; [|split; [|split]]]].
  - split; intros; cbn; repeat match goal with |- context [if ?x then _ else _] => destruct x end; discriminate.
  - split; intros; cbn; repeat match goal with |- context [if ?x then _ else _] => destruct x end; discriminate.
  - split; cbn; auto; intros; destruct r as [a|[|c]]; try discriminate; reflexivity.
  - split; cbn; auto; intros; destruct r as [a|[|c]]; try discriminate; reflexivity.
  - cbn. intros [d|x]; [|exact I]. unfold nlen. rewrite firstn_length. lia.
  - vm_compute. auto.
Qed.

(** ** C83 *)
Local Open Scope Z_scope.

(** However the task is polled: the address is the first in the order of the resolver that connects after all before it have
    failed; connections start in that order, a second apart, and at most four are open. *)
Theorem C83_polls : forall (l : list attempt) (times : list Z), ascending 0 times ->
  match race_polls times (race_new l) with
  | RWait r => state_ok l r
  | RDone w r => verdict l = Some w /\ state_ok l r
  | ROut => False
  end.
Proof. exact polls_outcome. Qed.
Print Assumptions C83_polls.
(** If the task is polled at every event, the search ends with this address, with the failure of all addresses, or never; never
    exactly if an address before does not answer. *)
Theorem C83_outcome : forall l : list attempt,
  match race_run l with LEnd _ w => verdict l = Some w | LNever => verdict l = None | LOut => False end.
Proof. exact run_outcome. Qed.
Print Assumptions C83_outcome.
(** If all addresses up to the first one that connects answer within [D], each costs at most a second and [D]. *)
Theorem C83_time_partial : forall (D : Z) (pre : list attempt) (a : attempt) (post : list attempt),
  0 <= D -> Forall (fun x => at_ok x = false /\ within D x) pre -> at_ok a = true -> within D a ->
  exists t, race_run (pre ++ a :: post) = LEnd t (Some (at_id a)) /\ t <= Z.of_nat (length pre) * (SECOND + D) + D.
Proof. exact connect_time. Qed.
Print Assumptions C83_time_partial.
(** So the client connects before its timeout if that time and the time of the handshake are below 20 seconds. *)
Theorem C83_connects_partial : forall (D shake : Z) (pre : list attempt) (a : attempt) (post : list attempt),
  0 <= D -> Forall (fun x => at_ok x = false /\ within D x) pre -> at_ok a = true -> within D a ->
  Z.of_nat (length pre) * (SECOND + D) + D + shake <= 20 * SECOND -> connects shake (pre ++ a :: post) = Some (at_id a).
Proof.
  intros D shake pre a post D0 F O W L. destruct (connect_time D pre a post D0 F O W) as [t [E T]]. unfold connects. rewrite E.
  replace (t + shake <=? CONNECT_LIMIT) with true; [reflexivity|]. symmetry. apply Z.leb_le. unfold CONNECT_LIMIT. lia.
Qed.
Print Assumptions C83_connects_partial.
Definition refuses : attempt := {| at_id := 1%N; at_time := Some 1000000; at_ok := false |}.
Definition accepts : attempt := {| at_id := 2%N; at_time := Some 1000000; at_ok := true |}.
Definition silent : attempt := {| at_id := 3%N; at_time := None; at_ok := false |}.
Example C83_case :
  Forall (fun x => at_ok x = false /\ within 1000000 x) [refuses; refuses] /\ at_ok accepts = true /\ within 1000000 accepts /\
  race_run ([refuses; refuses] ++ accepts :: [silent]) = LEnd 2001000000 (Some 2%N) /\ ascending 0 [0; 5; 5; 9] /\
  connects SECOND ([refuses; refuses] ++ accepts :: [silent]) = Some 2%N.
Proof.
  assert (R : at_ok refuses = false /\ within 1000000 refuses) by (split; [reflexivity|eexists; split; [reflexivity|lia]]).
  split; [repeat (constructor; [exact R|]); constructor|]. split; [reflexivity|]. split; [eexists; split; [reflexivity|lia]|].
  split; [reflexivity|]. split; [cbn; lia|reflexivity].
Qed.

(** Refuted: that the client connects if one of the addresses accepts at once. An address before it that does not answer (for
    example a dead IPv6 route) blocks it, however long the client waits and however often the task is polled. *)
Theorem C83_silent_refuted : exists (l : list attempt) (a : attempt), In a l /\ at_ok a = true /\ within 1000000 a /\
  (forall times, ascending 0 times -> exists r, race_polls times (race_new l) = RWait r) /\ (forall shake, connects shake l = None).
Proof.
  exists [silent; accepts], accepts. split; [right; now left|]. split; [reflexivity|]. split; [eexists; split; [reflexivity|lia]|]. split.
  - intros times A. pose proof (polls_outcome [silent; accepts] times A) as H. destruct (race_polls times (race_new [silent; accepts])) as [r|w r|].
    + now exists r.
    + destruct H as [H _]. discriminate.
    + contradiction.
  - intros shake. reflexivity.
Qed.
Print Assumptions C83_silent_refuted.

(** ** C84 *)

(** For the addresses of the command line: the name that is checked is the given host, without the port. *)
Theorem C84_partial : forall given : bytes,
  (host_form given -> hostname (service_address given) = given) /\
  (forall h p, host_form h -> digits p -> given = h ++ 58%N :: p -> hostname (service_address given) = h).
Proof. exact hostname_given. Qed.
Print Assumptions C84_partial.
Example C84_case :
  host_form (lit "arrow.example.com"%string) /\ hostname (service_address (lit "arrow.example.com"%string)) = lit "arrow.example.com"%string /\
  hostname (lit "arrow.example.com:8900"%string) = lit "arrow.example.com"%string.
Proof. split; [left; vm_compute; intuition discriminate|split; reflexivity]. Qed.
(** Refuted for IPv6 addresses: the brackets are part of the name, so no certificate matches. *)
Theorem C84_brackets_refuted : exists h : bytes, hostname (service_address (91%N :: h ++ [93%N])) <> h /\
  hostname (service_address (91%N :: h ++ [93%N])) = 91%N :: h ++ [93%N].
Proof. exists (lit "::1"%string). split; [vm_compute; discriminate|reflexivity]. Qed.
Print Assumptions C84_brackets_refuted.
