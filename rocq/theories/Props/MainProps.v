(** Properties of the main task: C43-C46.

    [main_task t0 t addr diag es = (m, h)]: the client was started at time [t0] for the service [addr]
    and went through the events [es] (failed TLS connections, everything that happens to a connection,
    ends of sleeps), with history [h]. [gaps h] are the pairs of consecutive connection attempts with the
    result and the sleep in between; [now_at h] is the last attempt, its result and the sleep after it. *)
From Coq Require Import NArith ZArith List Bool.
From Verif.Model Require Import Bytes Frame Service Control Session Manager Client MainTask.
From Verif.Spec Require Import ClientSpec MainSpec.
From Verif.Proofs Require Import ClientPropsPf2 MainProofs.
Import ListNotations.
Local Open Scope Z_scope.

(** Events of the examples. *)
Definition main_up (t : Z) : mtev := EvUp t race_id view0 view0.
Definition says (d : bool) (m : amsg) (now next : Z) : mtev :=
  EvConn (KPoll [SMsg now {| e_table := view0; e_scanning := false; e_diagnostic := d; e_hosts := []; e_services := [];
                             e_get_id := fun _ => None |} m]) now next.
Definition home : bytes := [97%N; 58%N; 49%N].
Definition ex_gone : amsg := {| m_service := 0; m_session := 0; m_payload := [0; 11; 0; 3; 98; 0]%N |}.

(** C43: after a redirect the next attempt goes to the target without sleeping; after a failure it goes to
    the configured address; after a failure other than unauthorized the task sleeps until 60 s after the
    start of the failed attempt unless that is at most 0.5 s away. *)
Theorem C43_paced :
  forall (t0 t : Z) (addr : bytes) (diag : bool) (es : list mtev) (m : mtask) (h : list mtobs) (g : gap),
    main_task t0 t addr diag es = (m, h) -> In g (gaps h) ->
    match g_result g with
    | Redirected a => g_next_addr g = a /\ g_sleep g = None
    | Failed k =>
        g_next_addr g = addr /\
        (k <> Unauthorized ->
         (g_sleep g = Some (g_start g + 60 * SEC) \/ (g_sleep g = None /\ g_start g + 59 * SEC + 500000000 <= g_end g)) /\
         (ascending t0 (main_times h) -> g_start g + 59 * SEC + 500000000 <= g_next g))
    end.
Proof. exact retry_gap. Qed.
Print Assumptions C43_paced.

Theorem C43_first_attempt :
  forall (t0 t : Z) (addr : bytes) (diag : bool) (es : list mtev) (m : mtask) (h : list mtobs),
    main_task t0 t addr diag es = (m, h) -> exists rest, h = TAttempt t addr :: rest.
Proof. exact first_attempt. Qed.
Print Assumptions C43_first_attempt.

(** The sleep after a failure, and what happens when it ends. *)
Theorem C43_sleep :
  forall (t0 t : Z) (addr : bytes) (es : list mtev) (m : mtask) (h : list mtobs) (te : Z) (k : ekind),
    main_task t0 t addr false es = (m, h) -> rd_result (now_at h) = Some (te, Failed k) ->
    rd_sleep (now_at h) =
    match k with
    | Unauthorized => match pairing_delay t0 te with Some d => Some (te + d) | None => None end
    | UnsupportedProtocolVersion => None
    | _ => match rd_attempt (now_at h) with Some (t1, _) => Some (t1 + 60 * SEC) | None => None end
    end.
Proof. exact sleeping. Qed.
Print Assumptions C43_sleep.

Theorem C43_wake :
  forall (t0 t : Z) (addr : bytes) (es : list mtev) (m : mtask) (h : list mtobs) (u te : Z) (r : cresult),
    main_task t0 t addr false es = (m, h) -> rd_result (now_at h) = Some (te, r) -> rd_sleep (now_at h) = Some u ->
    forall t', u <= t' ->
    exists m' o, main_task t0 t addr false (es ++ [EvWake t']) = (m', h ++ TAttempt t' addr :: o).
Proof. exact wake_attempt. Qed.
Print Assumptions C43_wake.

Example C43_case :
  let h := snd (main_task 0 1 home false
    [EvTls false (2 * SEC) 0; EvWake (60 * SEC); EvWake (61 * SEC); main_up (62 * SEC);
     EvConn (KPoll []) 0 0; says false (ack_msg 0 0) (63 * SEC) 0; says false ex_gone (70 * SEC) (71 * SEC);
     EvTls false (131 * SEC) (132 * SEC)]) in
  map (fun g => (g_start g, g_next g, g_next_addr g)) (gaps h) =
  [(1, 61 * SEC, home); (61 * SEC, 71 * SEC, [98%N]); (71 * SEC, 132 * SEC, home)].
Proof. vm_compute. reflexivity. Qed.

(** C44 *)
Theorem C44_pairing :
  forall (t0 t : Z) (addr : bytes) (diag : bool) (es : list mtev) (m : mtask) (h : list mtobs) (g : gap),
    main_task t0 t addr diag es = (m, h) -> In g (gaps h) -> g_result g = Failed Unauthorized ->
    exists d, pairing_delay t0 (g_end g) = Some d /\ g_sleep g = Some (g_end g + d) /\ g_end g + d <= g_next g.
Proof. exact unauthorized_gap. Qed.
Print Assumptions C44_pairing.

Theorem C44_suspended :
  forall (t0 t : Z) (addr : bytes) (es es' : list mtev) (m : mtask) (h : list mtobs) (te : Z) (k : ekind),
    main_task t0 t addr false es = (m, h) -> rd_result (now_at h) = Some (te, Failed k) ->
    k = UnsupportedProtocolVersion \/ (k = Unauthorized /\ t0 + 1200 * SEC <= te) ->
    snd (main_task t0 t addr false (es ++ es')) = h.
Proof. exact suspended_forever. Qed.
Print Assumptions C44_suspended.

Example C44_case :
  let no := fun t => [main_up t; EvConn (KPoll []) 0 0; says false (ack_msg 0 2) t t] in
  let h := snd (main_task 0 1 home false
    (no (5 * SEC) ++ [EvWake (15 * SEC)] ++ no (700 * SEC) ++ [EvWake (729 * SEC); EvWake (730 * SEC)] ++ no (1200 * SEC)
     ++ [EvWake (9999 * SEC)])) in
  map (fun g => (g_end g, g_next g)) (gaps h) = [(5 * SEC, 15 * SEC); (700 * SEC, 730 * SEC)] /\
  rd_result (now_at h) = Some (1200 * SEC, Failed Unauthorized) /\ rd_sleep (now_at h) = None /\ reported h = NotAuthorized.
Proof. vm_compute. repeat split. Qed.

(** C45 is false: Connected is reported as soon as an attempt starts. What is reported: Connected during
    an attempt (thus whenever a registered connection exists), otherwise Unauthorized or Disconnected
    according to the last result. *)
Theorem C45_early_refuted :
  exists (t0 t : Z) (addr : bytes) (es : list mtev) (m : mtask) (h : list mtobs),
    main_task t0 t addr false es = (m, h) /\ ascending t0 (main_times h) /\ reported h = Connected /\ ~ online h.
Proof. exact early_connected. Qed.
Print Assumptions C45_early_refuted.

Theorem C45_reported_partial :
  forall (t0 t : Z) (addr : bytes) (es : list mtev) (m : mtask) (h : list mtobs),
    main_task t0 t addr false es = (m, h) ->
    reported h = match rd_result (now_at h) with
                 | None => Connected
                 | Some (_, Failed Unauthorized) => NotAuthorized
                 | Some (_, _) => Disconnected
                 end.
Proof. exact reported_state. Qed.
Print Assumptions C45_reported_partial.

Theorem C45_online :
  forall (t0 t : Z) (addr : bytes) (es : list mtev) (m : mtask) (h : list mtobs),
    main_task t0 t addr false es = (m, h) -> online h -> reported h = Connected.
Proof. exact online_connected. Qed.
Print Assumptions C45_online.

Example C45_case :
  let h := snd (main_task 0 1 home false [main_up 2; EvConn (KPoll []) 0 0; says false (ack_msg 0 0) 3 3]) in
  registered (current_conn h) = true /\ rd_result (now_at h) = None /\
  reported (snd (main_task 0 1 home false [EvTls true 3 4])) = Disconnected.
Proof. vm_compute. repeat split. Qed.

(** C46: there is one attempt; the process exits when it is over, and as soon as the service has said
    anything; the status says whether the registration was answered with success or unauthorized. *)
Theorem C46_diagnostic_partial :
  forall (t0 t : Z) (addr : bytes) (es : list mtev) (m : mtask) (h : list mtobs),
    main_task t0 t addr true es = (m, h) -> told_mode true h ->
    gaps h = [] /\
    exits h =
      match rd_result (now_at h) with
      | None => []
      | Some _ => match service_verdict (current_conn h) with
                  | Some 0%N | Some 2%N => [0%N]
                  | _ => [1%N]
                  end
      end /\
    (received (current_conn h) <> [] -> rd_result (now_at h) <> None).
Proof. exact diagnostic. Qed.
Print Assumptions C46_diagnostic_partial.

Example C46_case :
  map (fun c => exits (snd (main_task 0 1 home true [main_up 2; EvConn (KPoll []) 0 0; says true (ack_msg 0 c) 3 3]))) [0; 1; 2; 3]%N
  = [[0]; [1]; [0]; [1]]%N /\
  exits (snd (main_task 0 1 home true [EvTls false 3 3])) = [1%N].
Proof. vm_compute. repeat split. Qed.
