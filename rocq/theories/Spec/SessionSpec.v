(** What to look at in the history of a session. *)
From Coq Require Import NArith List.
From Verif.Model Require Import Bytes Frame Service Control Session.
Import ListNotations.
Local Open Scope N_scope.

(** Payload bytes accepted for the service, bytes written to it, bytes read from it, bytes sent to the
    Arrow service, bytes acknowledged to the Arrow service, in order of occurrence. *)
Definition accepted (o : list sobs) : bytes :=
  concat (map (fun x => match x with Accepted p => p | _ => [] end) o).
Definition written (o : list sobs) : bytes :=
  concat (map (fun x => match x with Wrote p => p | _ => [] end) o).
Definition read_in (o : list sobs) : bytes :=
  concat (map (fun x => match x with ReadIn p => p | _ => [] end) o).
Definition sent (o : list sobs) : bytes :=
  concat (map (fun x => match x with SentData m => m_payload m | _ => [] end) o).
Definition ack_of (m : cmsg) : N := match cm_body m with BDataAck _ n => n | _ => 0 end.
Definition acked_out (o : list sobs) : N :=
  fold_right (fun x acc => match x with SentAck m => ack_of m | _ => 0 end + acc) 0 o.

(** Total of the DATA_ACK values received from the Arrow service. *)
Definition acked_in (es : list sev) : N :=
  fold_right (fun e acc => match e with EDataAck n => n | _ => 0 end + acc) 0 es.
