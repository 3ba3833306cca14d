(** C142: what the client has to tell the server is sent, whatever the server does.

    A connection did [es1] and goes on with [es2], in which the server may send anything that does not end the
    connection. *)
From Coq Require Import NArith ZArith List Bool Lia.
From Verif.Model Require Import Bytes Frame Service Control Session Manager Client.
From Verif.Spec Require Import ClientSpec EventsSpec QueueSpec FairSpec.
From Verif.Proofs Require Import ClientPropsPf2 OwedPf.
Import ListNotations.
Local Open Scope N_scope.

(** The messages that wait are the next ones sent, in their order, one by each poll. *)
Theorem C142_next :
  forall (t : Z) (i : identity) (v1 v2 : view) (es1 : list kev) (k1 : conn) (h1 : list cobs) (q : list amsg) (es2 : list kev)
         (k2 : conn) (h2 : list cobs),
    connection t i v1 v2 es1 = (k1, h1) -> waiting h1 = Some q -> conn_run k1 es2 = (k2, h2) -> k_result k2 = None ->
    (length q <= client_polls es2)%nat -> exists rest, sent h2 = q ++ rest.
Proof. exact owed_sent. Qed.
Print Assumptions C142_next.

(** A poll for each UPDATE of the past and one more are enough for all messages produced in [es1]. *)
Theorem C142_produced :
  forall (t : Z) (i : identity) (v1 v2 : view) (es1 : list kev) (k1 : conn) (h1 : list cobs) (es2 : list kev) (k2 : conn)
         (h2 : list cobs),
    connection t i v1 v2 es1 = (k1, h1) -> conn_run k1 es2 = (k2, h2) -> k_result k2 = None ->
    (1 + updates h1 <= client_polls es2)%nat -> subseq (map amsg_of_cmsg (produced h1)) (sent (h1 ++ h2)).
Proof. exact all_sent. Qed.
Print Assumptions C142_produced.

(** So every request is answered to the server, in the order of the requests. *)
Theorem C142_answered :
  forall (t : Z) (i : identity) (v1 v2 : view) (es1 : list kev) (k1 : conn) (h1 : list cobs) (es2 : list kev) (k2 : conn)
         (h2 : list cobs),
    connection t i v1 v2 es1 = (k1, h1) -> conn_run k1 es2 = (k2, h2) -> k_result k2 = None ->
    (1 + updates h1 <= client_polls es2)%nat ->
    exists ans, Forall2 answer (asked h1) ans /\ subseq (map amsg_of_cmsg ans) (sent (h1 ++ h2)).
Proof. exact answered_sent. Qed.
Print Assumptions C142_answered.

(** A PING and an UPDATE wait while the server asks with every poll; the answer to its first request comes third. *)
Definition asking (t : Z) (n y : N) : kev := KPoll [SMsg t (env0 view9) (control_msg [0; n; 0; y])].
Definition changed : view := {| v_visible := [(5, tcp1 9)]; v_version := 2; v_get := v_get view9 |}.
Definition owing : list kev := up_events ++ [KTick (61 * SEC) changed changed changed; asking (62 * SEC) 9 1].
Definition later : list kev := [asking (62 * SEC) 10 8; asking (62 * SEC) 11 10].
Example C142_case :
  let '(k1, h1) := connection 0 race_id view9 view9 owing in
  let '(k2, h2) := conn_run k1 later in
  k_result k2 = None /\ updates h1 = 1%nat /\ client_polls later = 2%nat /\ length (asked h1) = 1%nat /\
  map cm_type (produced h1) = [2; 1; 4; 0] /\ option_map (@length amsg) (waiting h1) = Some 2%nat /\
  map (fun m => firstn 4 (m_payload m)) (sent (h1 ++ h2)) = [[0; 0; 0; 2]; [0; 1; 0; 1]; [0; 2; 0; 4]; [0; 9; 0; 0]].
Proof. vm_compute. repeat split. Qed.
