(** C145: the numbers of the control messages of a connection. *)
From Coq Require Import NArith List Bool.
From Verif.Model Require Import Bytes Frame Control Session Manager Client.
Import ListNotations.
Local Open Scope N_scope.

(** The number of an encoded control message: its first two bytes. *)
Definition number_of (m : amsg) : N := match m_payload m with a :: b :: _ => 256 * a + b | _ => 0 end.

(** The control messages made at a step, by their numbers: all but the answers to PINGs (of type 0), which have the
    number of the PING. *)
Definition made_by (x : cobs) : list N :=
  match x with
  | XQueue _ m => if cm_type m =? 0 then [] else [cm_id m]
  | XMgr (OQueued m) => [number_of m]
  | XMgr (OSess _ _ o) => flat_map (fun y => match y with SentAck m => [cm_id m] | _ => [] end) o
  | XMgr (OMsg (EndOf _ _) m) => [number_of m]
  | _ => []
  end.
Definition made (h : list cobs) : list N := flat_map made_by h.
