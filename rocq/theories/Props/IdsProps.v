(** C145: the control messages of a connection are numbered one after the other. *)
From Coq Require Import NArith ZArith List Bool Lia.
From Verif.Model Require Import Bytes Frame Service Control Session Manager Client.
From Verif.Spec Require Import ClientSpec IdsSpec.
From Verif.Proofs Require Import ClientPropsPf2 IdsPf.
Import ListNotations.
Local Open Scope N_scope.

(** The n-th control message that a connection makes of itself, counted from zero, has the number n modulo 65536, whoever
    makes it: the client, the watchdog, the session manager or one of the sessions. *)
Theorem C145_numbered :
  forall (t : Z) (i : identity) (v1 v2 : view) (es : list kev) (k : conn) (h : list cobs),
    connection t i v1 v2 es = (k, h) ->
    forall (n : nat) (x : N), nth_error (made h) n = Some x -> x = N.of_nat n mod 65536.
Proof. exact numbered. Qed.
Print Assumptions C145_numbered.

(** So two messages with the same number are at least 65536 messages apart. *)
Theorem C145_apart :
  forall (t : Z) (i : identity) (v1 v2 : view) (es : list kev) (k : conn) (h : list cobs),
    connection t i v1 v2 es = (k, h) ->
    forall (n d : nat) (x : N), nth_error (made h) n = Some x -> nth_error (made h) (n + S d) = Some x -> 65536 <= N.of_nat (S d).
Proof. exact numbers_apart. Qed.
Print Assumptions C145_apart.

(** REGISTER, PING, a DATA_ACK, the HUP of a refused connection, a status report, the HUP of a service that has closed. *)
Definition events145 : list kev :=
  up_events ++
  [KPoll [SMsg 2%Z (env0 view9) (connect_msg 0)]; KTick 70000000000%Z view9 view9 view9;
   KPoll [SMsg 4%Z (env0 view9) {| m_service := 5; m_session := 7; m_payload := [1; 2; 3] |}];
   KTransport 7 TConnected; KTransport 7 (TPolled RdPending (WrOk 3)); KPoll []; KPoll [];
   KPoll [SMsg 5%Z (env0 view9) (control_msg [0; 49; 0; 13; 0; 9; 0; 0; 0; 8])]; KPoll []; KPoll [];
   KPoll [SMsg 6%Z (env0 view9) (control_msg [0; 50; 0; 8])]; KPoll [];
   KTransport 7 (TPolled (RdData []) WrPending); KPoll []; KPoll []; KPoll []].
Example C145_case : made (snd (connection 0%Z race_id view9 view9 events145)) = [0; 1; 2; 3; 4; 5].
Proof. vm_compute. reflexivity. Qed.
