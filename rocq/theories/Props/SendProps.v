(** C127: everything a client sends is a message of its side of the protocol.

    [connection t i v1 v2 es = (k, h)]: a connection went through the events [es] and has history [h]. A message is
    judged by its bytes and by what happened before it ([h1]). *)
From Coq Require Import NArith ZArith List Bool.
From Verif.Model Require Import Bytes Frame Service Control Alist Session Manager Client.
From Verif.Spec Require Import ControlSpec ClientSpec SendSpec.
From Verif.Proofs Require Import ClientPropsPf2 SendPf.
Import ListNotations.
Local Open Scope N_scope.

Theorem C127_sent :
  forall (t : Z) (i : identity) (v1 v2 : view) (es : list kev) (k : conn) (h h1 h2 : list cobs) (m : amsg),
    connection t i v1 v2 es = (k, h) -> bytes_received h -> h = h1 ++ XSent m :: h2 -> client_frame i h1 m.
Proof. intros. eapply sends_legal; eauto. Qed.
Print Assumptions C127_sent.

(** REGISTER, the data and the acknowledgement of a session, a HUP for a session nobody knows, the end of the
    session. *)
Example C127_case :
  exists k h, connection 0 race_id view9 view9 send_events = (k, h) /\ bytes_received h /\
    map (fun m => (m_service m, m_session m, m_payload m)) (tl (sent h)) =
    [(5, 7, [1; 2]);
     (0, 0, [0; 1; 0; 12; 0; 0; 0; 7; 0; 0; 0; 1]);
     (0, 0, [0; 2; 0; 5; 0; 0; 0; 8; 0; 0; 0; 3]);
     (0, 0, [0; 3; 0; 5; 0; 0; 0; 7; 0; 0; 0; 0])] /\
    exists h1 h2, h = h1 ++ XSent {| m_service := 5; m_session := 7; m_payload := [1; 2] |} :: h2 /\ asked_for h1 5 7.
Proof. exact send_case. Qed.

(** Server messages are none of them: a client that sent a CONNECT would break the theorem. *)
Example C127_strict :
  forall h, ~ client_control h [0; 1; 0; 13; 0; 5; 0; 0; 0; 7] /\ ~ client_control h [0; 1; 0; 2] /\
            ~ client_control h [0; 1; 0; 0; 0; 0].
Proof. intros h. repeat split; intros H; inversion H; subst; discriminate. Qed.
