(** The main task and the servers it talked to. *)
From Coq Require Import NArith ZArith List Bool.
From Verif.Model Require Import Bytes Frame Service Control Session Manager Client MainTask.
From Verif.Spec Require Import ControlSpec ClientSpec MainSpec.
Import ListNotations.
Local Open Scope N_scope.

(** Everything received on any connection is a sequence of bytes. *)
Definition main_bytes (h : list mtobs) : Prop :=
  forall en m, In (TConn (XRecv en m)) h -> wf_bytes (m_payload m).

(** The connection [c] ended with a REDIRECT to [a] from a server that had accepted the registration. *)
Definition sent_away (c : list cobs) (a : bytes) : Prop :=
  exists c1 en m id, c = c1 ++ [XRecv en m] /\ registered c1 = true /\
    server_says m {| cm_id := id; cm_type := 3; cm_body := BRedirect a |}.

(** The connection [c] ended when the first message of the server answered REGISTER with [code]. *)
Definition answered (c : list cobs) (code : N) : Prop :=
  exists c1 en m, c = c1 ++ [XRecv en m] /\ received c1 = [] /\ read_ack m = Some (REGISTER_ID, code).
