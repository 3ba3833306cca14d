(** The main task and the servers it talked to: C121.

    [current_conn h] is the history of the connection that was up at the end of [h]. *)
From Coq Require Import NArith ZArith List Bool.
From Verif.Model Require Import Bytes Frame Service Control Session Manager Client MainTask.
From Verif.Spec Require Import ControlSpec ClientSpec MainSpec EndSpec WholeSpec.
From Verif.Proofs Require Import ClientPropsPf2 MainProofs EndPf WholePf.
From Verif.Props Require Import MainProps.
Import ListNotations.
Local Open Scope Z_scope.

(** C121: the client connects to the configured address, or to one that the server it was registered with has just
    named in a REDIRECT. *)
Theorem C121_address :
  forall (t0 t : Z) (addr : bytes) (diag : bool) (es : list mtev) (m : mtask) (h h1 : list mtobs) (t' : Z) (a : bytes) (h2 : list mtobs),
    main_task t0 t addr diag es = (m, h) -> told_mode diag h -> main_bytes h -> h = h1 ++ TAttempt t' a :: h2 ->
    a = addr \/
    exists h0 te, h1 = h0 ++ [TResult te (Redirected a)] /\ sent_away (current_conn h0) a.
Proof. exact address_source. Qed.
Print Assumptions C121_address.

(** Unauthorized is reported only after a server has refused the registration with code 2. *)
Theorem C121_unauthorized :
  forall (t0 t : Z) (addr : bytes) (diag : bool) (es : list mtev) (m : mtask) (h h1 h2 : list mtobs),
    main_task t0 t addr diag es = (m, h) -> main_bytes h -> h = h1 ++ TState NotAuthorized :: h2 ->
    exists h0 te, h1 = h0 ++ [TResult te (Failed Unauthorized)] /\ answered (current_conn h0) 2.
Proof. exact unauthorized_source. Qed.
Print Assumptions C121_unauthorized.

(** At any time an attempt is going on, or there will be one (C43_wake), or a server has answered REGISTER with
    "unsupported version", or with "unauthorized" when pairing was over. Failing networks never stop the client. *)
Theorem C121_keeps_trying :
  forall (t0 t : Z) (addr : bytes) (es : list mtev) (m : mtask) (h : list mtobs),
    main_task t0 t addr false es = (m, h) -> main_bytes h ->
    rd_result (now_at h) = None \/ (exists u, rd_sleep (now_at h) = Some u) \/
    (exists te, rd_result (now_at h) = Some (te, Failed UnsupportedProtocolVersion) /\ answered (current_conn h) 1) \/
    (exists te, rd_result (now_at h) = Some (te, Failed Unauthorized) /\ answered (current_conn h) 2 /\ t0 + 1200 * SEC <= te).
Proof. exact gives_up. Qed.
Print Assumptions C121_keeps_trying.

(** A connection that is redirected to [98], where the client is told that it is not authorized. *)
Definition ex_whole : list mtobs := snd (main_task 0 1 home false
  [main_up 2; EvConn (KPoll []) 0 0; says false (ack_msg 0 0) 3 3; says false ex_gone 4 5;
   main_up 6; EvConn (KPoll []) 0 0; says false (ack_msg 0 2) (1200 * SEC) 0]).
Example C121_case :
  filter (fun x => match x with TConn _ => false | _ => true end) ex_whole =
    [TAttempt 1 home; TState Connected; TResult 4 (Redirected [98%N]); TAttempt 5 [98%N];
     TResult (1200 * SEC) (Failed Unauthorized); TState NotAuthorized] /\
  rd_sleep (now_at ex_whole) = None /\ answered (current_conn ex_whole) 2 /\
  forallb (fun x => match x with TConn (XRecv en m) => negb (e_diagnostic en) && forallb (fun b => (b <? 256)%N) (m_payload m) | _ => true end)
    ex_whole = true.
Proof.
  split; [vm_compute; reflexivity|]. split; [vm_compute; reflexivity|]. split; [|vm_compute; reflexivity].
  vm_compute current_conn. eexists (_ :: _ :: []), _, _. split; [reflexivity|]. split; reflexivity.
Qed.
