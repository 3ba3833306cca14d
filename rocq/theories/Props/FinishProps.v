(** Property C161: a redirect that the client has read is followed; and what it means for C31 and C46.

    [wire_connection t i v1 v2 es = Some (q, h)]: a connection went through the events [es] and is now in state [q] with history [h];
    [ending_new T q = Some s]: it has ended, and [s] is where the call of `connect` is then; [ending_run s es']: after the events [es']
    (writes to the TLS stream, write errors, the watchdog, the shutdown of the stream, the timeout);
    [EReturned t r]: `connect` returned [r]. *)
From Coq Require Import NArith ZArith List Bool.
From Verif.Model Require Import Bytes Frame Service Control Alist Session Manager Client Wire MainTask Finish.
From Verif.Spec Require Import FrameSpec ControlSpec ManagerSpec ClientSpec WireSpec MainSpec FinishSpec.
From Verif.Proofs Require Import ClientPropsPf2 FinishPf.
Import ListNotations.
Local Open Scope Z_scope.

(** The result is the target of the redirect, unless a write fails before the watchdog has woken up and before the server has taken
    what was in the sink: then it is an error, always. *)
Theorem C161_result_partial :
  forall (t : Z) (i : identity) (v1 v2 : view) (es : list wev) (q : wconn) (h : list cobs) (target : bytes) (T : Z) (s : ending)
         (es' : list eev) (t' : Z) (r : cresult),
    wire_connection t i v1 v2 es = Some (q, h) -> k_result (q_conn q) = Some (Redirected target) -> ending_new T q = Some s ->
    n_phase (ending_run s es') = EReturned t' r ->
    (broken_early (length (q_buf q)) es' /\ r = Failed OtherError) \/ (~ broken_early (length (q_buf q)) es' /\ r = Redirected target).
Proof. exact redirect_result. Qed.
Print Assumptions C161_result_partial.

(** Every ended connection returns at most 20 seconds after the watchdog has woken up, whatever the server does. *)
Theorem C161_returns :
  forall (t : Z) (i : identity) (v1 v2 : view) (es : list wev) (q : wconn) (h : list cobs) (T : Z) (s : ending)
         (es1 : list eev) (t1 : Z) (es2 : list eev) (t2 : Z) (es3 : list eev),
    wire_connection t i v1 v2 es = Some (q, h) -> ending_new T q = Some s ->
    Forall (fun e => eev_time e <= t1) es1 -> t1 + 20 * SEC <= t2 ->
    exists t' r, n_phase (ending_run s (es1 ++ EWatch t1 :: es2 ++ ETimer t2 :: es3)) = EReturned t' r.
Proof. exact returns. Qed.
Print Assumptions C161_returns.

(** Once the buffer of the sink is empty, everything that was sent before the redirect has been written, in order and complete. *)
Theorem C161_written :
  forall (t : Z) (i : identity) (v1 v2 : view) (es : list wev) (q : wconn) (h : list cobs) (target : bytes) (T : Z) (s : ending) (es' : list eev),
    wire_connection t i v1 v2 es = Some (q, h) -> Forall wf_amsg (sent h) -> k_result (q_conn q) = Some (Redirected target) ->
    ending_new T q = Some s -> n_buf (ending_run s es') = [] -> n_wire (ending_run s es') = concat (map frame_layout (sent h)).
Proof. exact all_written. Qed.
Print Assumptions C161_written.

(** The server has 20 seconds to take it: a connection that does not break writes everything that the stream takes in that time. *)
Theorem C161_given_time :
  forall (t : Z) (i : identity) (v1 v2 : view) (es : list wev) (q : wconn) (h : list cobs) (target : bytes) (T : Z) (s : ending) (es' : list eev),
    wire_connection t i v1 v2 es = Some (q, h) -> Forall wf_amsg (sent h) -> k_result (q_conn q) = Some (Redirected target) ->
    ending_new T q = Some s -> Forall (fun e => T <= eev_time e < T + 20 * SEC) es' ->
    Forall (fun e => match e with EBroken _ => False | _ => True end) es' -> (length (q_buf q) <= accepted es')%nat ->
    n_wire (ending_run s es') = concat (map frame_layout (sent h)).
Proof. exact redirect_written. Qed.
Print Assumptions C161_given_time.

(** The redirect can be lost: a registered server sends PING and REDIRECT and goes away. The client has read the REDIRECT as the last
    message of the connection, but `connect` returns an error: the next attempt is made at the configured address and not at once. *)
Theorem C161_lost_refuted :
  exists (i : identity) (v : view) (es : list wev) (q : wconn) (h h1 : list cobs) (s : ending) (e : env) (m : amsg) (id : N) (target : bytes) (t' : Z),
    wire_connection 0 i v v es = Some (q, h) /\ h = h1 ++ [XRecv e m] /\ registered h1 = true /\
    server_says m {| cm_id := id; cm_type := 3; cm_body := BRedirect target |} /\
    ending_new 2 q = Some s /\ n_phase (ending_run s [EBroken t']) = EReturned t' (Failed OtherError) /\
    forall (mt : mtask) (next : Z), mt_diag mt = false -> t' + SEC < mt_last mt + 60 * SEC ->
      mt_current (fst (process_result mt (Failed OtherError) t' next)) = mt_default mt /\
      mt_phase (fst (process_result mt (Failed OtherError) t' next)) = PWait (mt_last mt + 60 * SEC).
Proof. exact lost_redirect. Qed.
Print Assumptions C161_lost_refuted.

(** For the main task a lost redirect is the same as a connection that broke just before the REDIRECT: what holds for all its histories
    holds after a lost redirect, too. *)
Theorem C161_as_broken :
  forall (m : mtask) (k : conn) (now next : Z),
    mt_phase m = POnline k -> k_result k = None ->
    mtask_step m (EvConn KSinkFailed now next) = process_result m (Failed OtherError) now next.
Proof. exact as_broken. Qed.
Print Assumptions C161_as_broken.

(** C31: so the call does not always return the target. *)
Theorem C31_lost_refuted :
  exists (i : identity) (v : view) (es : list wev) (q : wconn) (h h1 : list cobs) (s : ending) (e : env) (m : amsg) (id : N) (target : bytes) (t' : Z),
    wire_connection 0 i v v es = Some (q, h) /\ h = h1 ++ [XRecv e m] /\ registered h1 = true /\
    server_says m {| cm_id := id; cm_type := 3; cm_body := BRedirect target |} /\
    ending_new 2 q = Some s /\ n_phase (ending_run s [EBroken t']) = EReturned t' (Failed OtherError).
Proof. exact lost_redirect_short. Qed.
Print Assumptions C31_lost_refuted.

(** C46: in diagnostic mode the process exits with status 1 although the service accepted the registration, if the connection breaks
    before the rest of the REGISTER is written. *)
Theorem C46_broken_refuted :
  exists (i : identity) (v : view) (es : list wev) (q : wconn) (h : list cobs) (s : ending) (t' : Z) (r : cresult),
    wire_connection 0 i v v es = Some (q, h) /\ Forall (fun x => e_diagnostic (fst x) = true) (received h) /\ service_verdict h = Some 0%N /\
    ending_new 2 q = Some s /\ n_phase (ending_run s [EBroken t']) = EReturned t' r /\ diagnose r = 1%N.
Proof. exact lost_verdict. Qed.
Print Assumptions C46_broken_refuted.

Example C161_as_broken_case :
  let m := fst (main_task 0 1 [97; 58; 50]%N false [EvUp 2 race_id view9 view9]) in
  mt_phase m = POnline (fst (conn_new 2 race_id view9 view9)) /\
  mt_phase (fst (mtask_step m (EvConn KSinkFailed 3 4))) = PWait (1 + 60 * SEC).
Proof. vm_compute. split; reflexivity. Qed.

(** The server takes the ACK of its PING and the stream is shut down; the server takes nothing and the timeout ends the call; the write
    fails when the watchdog has ended the flush: the target is returned. *)
Example C161_case :
  ended_as fin_wire (fun q h s =>
    k_result (q_conn q) = Some (Redirected [97; 58; 49]%N) /\ length (q_buf q) = 19%nat /\ length (sent h) = 2%nat /\
    n_phase (ending_run s [ESent 10 2; ESent 10 3; EShut 4]) = EReturned 4 (Redirected [97; 58; 49]%N) /\
    n_buf (ending_run s [ESent 10 2; ESent 10 3; EShut 4]) = [] /\
    n_phase (ending_run s [ESent 10 2; EWatch 3; ESent 5 4; EShut 5; ETimer (3 + 20 * SEC)]) = EReturned (3 + 20 * SEC) (Redirected [97; 58; 49]%N) /\
    length (n_wire (ending_run s [EWatch 3; ESent 10 4; ESent 9 (19 * SEC)])) = 139%nat /\
    n_phase (ending_run s [ESent 10 2; EWatch 3; EBroken 4]) = EReturned 4 (Redirected [97; 58; 49]%N) /\
    n_phase (ending_run s [ESent 10 2; EBroken 4]) = EReturned 4 (Failed OtherError)).
Proof. vm_compute. repeat split. Qed.
