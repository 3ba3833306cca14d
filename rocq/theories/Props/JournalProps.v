(** Properties C147 and C148: what the log says about the sessions and about the connections to the server; and what a
    server can write into it (C104).

    [mgr_journal aprint g es]: the records of a history [es] of the session manager (with the texts of the errors);
    [main_journal t0 t addr diag es]: those of the main task. *)
From Coq Require Import String NArith ZArith List Permutation Bool.
From Verif.Model Require Import Bytes Text Frame Service Control Session Manager Client MainTask Logger Journal.
From Verif.Spec Require Import ControlSpec TextSpec NumeralSpec ClientSpec JournalSpec.
From Verif.Proofs Require Import ClientPropsPf2 JournalPf JournalPf2.
Import ListNotations.
Local Open Scope N_scope.

(** C147: at any time the sessions that the log shows as open are the open ones. No session is shown to be opened twice without
    an end in between, every end has its beginning, and when the manager is gone, the log shows no open session. *)
Theorem C147_sessions :
  forall (aprint : saddr -> bytes) (W : N) (gw : bool) (f : factory) (es : list (mev * bytes)) (g : mgr) (h : list mobs) (d : list jrec),
    mgr_run (mgr_new W gw f) (map fst es) = (g, h) -> Permutation d (drop_log g) ->
    let j := mgr_journal aprint (mgr_new W gw f) es in
    (forall sid, shown_open aprint j sid <-> In sid (map fst (g_sessions g))) /\
    (forall j1 r j2 sid, j ++ d = j1 ++ r :: j2 ->
       ((exists a svc, opening aprint a svc sid r) -> ~ shown_open aprint j1 sid) /\ (ending sid r -> shown_open aprint j1 sid)) /\
    (forall sid, ~ shown_open aprint (j ++ d) sid).
Proof. exact audit. Qed.
Print Assumptions C147_sessions.

(** A request for a connection is answered by a connection to the address in the record, or refused for the reason in the record. *)
Theorem C147_connect :
  forall (aprint : saddr -> bytes) (W : N) (gw : bool) (f : factory) (es : list (mev * bytes)) (get : N -> option service) (svc sid : N) (err : bytes),
    let g0 := mgr_new W gw f in
    let j := mgr_journal aprint g0 es in
    let j' := mgr_journal aprint g0 (es ++ [(MConnect get svc sid, err)]) in
    let o := snd (mgr_step (fst (mgr_run g0 (map fst es))) (MConnect get svc sid)) in
    (exists t mac a r, o = [OOpen sid t mac a] /\ j' = j ++ [r] /\ opening aprint a svc sid r) \/
    (exists m r r' reason, o = [OQueued m] /\ j' = j ++ [r; r'] /\ j_sev r = WARN /\
       j_text r = lit "unable to connect to a remote service: "%string ++ reason /\ refusal aprint j get gw svc sid reason /\ hangup_told m r').
Proof. exact connect_told. Qed.
Print Assumptions C147_connect.

(** With -v, the log has a record for each hang-up message. *)
Theorem C147_hangups :
  forall (aprint : saddr -> bytes) (es : list (mev * bytes)) (g : mgr),
    Forall2 hangup_told (hangups (snd (mgr_run g (map fst es)))) (filter is_debug (mgr_journal aprint g es)).
Proof. exact hups_told. Qed.
Print Assumptions C147_hangups.

Definition ex_camera : N -> option service :=
  fun n => if n =? 10 then Some (svc_http 7 {| sa_ip := V4 2130706433; sa_port := 80 |}) else None.
Definition ex_print (a : saddr) : bytes := print_dec (sa_port a).
Definition ex_sessions : list (mev * bytes) :=
  [(MConnect ex_camera 10 171, []); (MConnect ex_camera 11 172, []); (MConnect ex_camera 10 171, []); (MClose 171, []);
   (MConnect ex_camera 10 171, []); (MTransport 171 TConnectFailed, []); (MPoll, []); (MPoll, []); (MPoll, lit "refused"%string); (MConnect ex_camera 10 173, [])].
Example C147_case :
  map j_text (mgr_journal ex_print (mgr_new 65536 true 0) ex_sessions ++ drop_log (fst (mgr_run (mgr_new 65536 true 0) (map fst ex_sessions)))) =
  [lit "connecting to remote service: 80, service ID: 000a, session ID: 0000ab"%string;
   lit "unable to connect to a remote service: unknown service ID: 000b"%string;
   lit "sending a HUP message (session ID: 0000ac, error_code: 00000003)..."%string;
   lit "unable to connect to a remote service: the session already exists; session ID: 0000ab"%string;
   lit "sending a HUP message (session ID: 0000ab, error_code: 00000003)..."%string;
   lit "closing service connection; session ID: 0000ab"%string;
   lit "connecting to remote service: 80, service ID: 000a, session ID: 0000ab"%string;
   lit "service connection error; session ID: 0000ab: refused"%string;
   lit "sending a HUP message (session ID: 0000ab, error_code: 00000003)..."%string;
   lit "connecting to remote service: 80, service ID: 000a, session ID: 0000ad"%string;
   lit "closing service connection; session ID: 0000ad"%string].
Proof. vm_compute. reflexivity. Qed.

(** C148: the log lists the addresses of all attempts, the lengths of all sleeps (rounded down to milliseconds) and the servers
    that refused the client, in order, and has one warning for each other failure. *)
Theorem C148_attempts :
  forall (t0 t : Z) (addr : bytes) (es : list (mtev * bytes)) (m : mtask) (h : list mtobs),
    main_task t0 t addr false (map fst es) = (m, h) ->
    let j := main_journal t0 t addr false es in
    told (lit "connecting to remote Arrow Service "%string) j = map (app (lit "connecting to remote Arrow Service "%string)) (tried h) /\
    (forall n, Forall2 announced (sleeps n h) (told (lit "retrying in "%string) j)) /\
    told (lit "connection rejected by the remote service "%string) j =
      map (fun a => lit "connection rejected by the remote service "%string ++ a ++ lit "; is the client paired?"%string) (refusers addr h) /\
    List.length (filter is_warn j) = List.length (failures h).
Proof. exact main_faithful. Qed.
Print Assumptions C148_attempts.

(** The record that the connection thread is suspended is there if and only if it is; it is the last one and comes with its reason,
    and nothing happens after it. *)
Theorem C148_suspended :
  forall (t0 t : Z) (addr : bytes) (diag : bool) (es : list (mtev * bytes)) (m : mtask) (h : list mtobs),
    main_task t0 t addr diag (map fst es) = (m, h) ->
    (In SUSP (main_journal t0 t addr diag es) <-> mt_phase m = PSuspended) /\
    (mt_phase m = PSuspended -> ends_suspended h (main_journal t0 t addr diag es) /\
       forall es', main_task t0 t addr diag (map fst (es ++ es')) = (m, h) /\ main_journal t0 t addr diag (es ++ es') = main_journal t0 t addr diag es).
Proof. exact main_suspends. Qed.
Print Assumptions C148_suspended.

Definition ex_env : env := {| e_table := view0; e_scanning := false; e_diagnostic := false; e_hosts := []; e_services := []; e_get_id := fun _ => None |}.
Definition ex_said (m : amsg) (now next : Z) : mtev := EvConn (KPoll [SMsg now ex_env m]) now next.
Definition ex_refused : list (mtev * bytes) :=
  [(EvTls false 2000000000 3000000000, lit "timeout"%string); (EvWake (60 * SEC + 1), []); (EvUp (61 * SEC) race_id view0 view0, []); (EvConn (KPoll []) 0 0, []);
   (ex_said (ack_msg 0 2) (62 * SEC) 0, []); (EvWake (72 * SEC), []); (EvUp (73 * SEC) race_id view0 view0, []); (EvConn (KPoll []) 0 0, []);
   (ex_said (ack_msg 0 1) (74 * SEC) 0, lit "version"%string)]%Z.
Example C148_case :
  map j_text (main_journal 0 1 (lit "a:1"%string) false ex_refused) =
  [lit "connecting to remote Arrow Service a:1"%string; lit "timeout"%string; lit "retrying in 58.000 seconds"%string;
   lit "connecting to remote Arrow Service a:1"%string; lit "connection rejected by the remote service a:1; is the client paired?"%string;
   lit "retrying in 10.000 seconds"%string; lit "connecting to remote Arrow Service a:1"%string; lit "version"%string;
   lit "unsupported protocol version"%string; lit "suspending the connection thread"%string].
Proof. vm_compute. reflexivity. Qed.

(** C104: the records of the main task are single lines as long as the configured address, the targets of the redirections and the
    texts of the errors have no line feeds. *)
Theorem C104_journal_partial :
  forall (t0 t : Z) (addr : bytes) (diag : bool) (es : list (mtev * bytes)) (m : mtask) (h : list mtobs),
    main_task t0 t addr diag (map fst es) = (m, h) ->
    no_lf addr -> Forall (fun p => no_lf (snd p)) es -> Forall no_lf (targets h) ->
    Forall (fun r => no_lf (j_text r)) (main_journal t0 t addr diag es).
Proof. exact main_lines. Qed.
Print Assumptions C104_journal_partial.

Example C104_journal_case : Forall (fun p => no_lf (snd p)) ex_refused /\ no_lf (lit "a:1"%string) /\ targets (snd (main_task 0 1 (lit "a:1"%string) false (map fst ex_refused))) = [].
Proof. split; [repeat constructor; plain|split; [plain|vm_compute; reflexivity]]. Qed.

(** A server that the client is registered with can write lines of its choice: a redirection whose target has a line feed. *)
Definition ex_forger : amsg :=
  {| m_service := 0; m_session := 0; m_payload := [0; 11; 0; 3] ++ lit "b"%string ++ [10] ++ lit "2026-01-01 00:00:00 INFO    [x:1] closing service connection; session ID: 0000ab"%string ++ [0] |}.
Theorem C104_redirect_refuted :
  exists es : list (mtev * bytes), Forall (fun p => snd p = []) es /\
    map j_text (main_journal 0 1 (lit "a:1"%string) false es) =
    [lit "connecting to remote Arrow Service a:1"%string;
     lit "connecting to remote Arrow Service b"%string ++ [10] ++ lit "2026-01-01 00:00:00 INFO    [x:1] closing service connection; session ID: 0000ab"%string].
Proof.
  exists [(EvUp 2 race_id view0 view0, []); (EvConn (KPoll []) 0 0, []); (ex_said (ack_msg 0 0) 3 3, []); (ex_said ex_forger 4 5, [])].
  split; [repeat constructor|vm_compute; reflexivity].
Qed.
Print Assumptions C104_redirect_refuted.
