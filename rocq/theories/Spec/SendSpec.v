(** What a client may send, byte by byte, in the light of what happened before. *)
From Coq Require Import NArith ZArith List Bool.
From Verif.Model Require Import Bytes Frame Service Control Session Manager Client.
From Verif.Spec Require Import ControlSpec ClientSpec.
Import ListNotations.
Local Open Scope N_scope.

(** The server asked for session [sid] of service [svc]; the server mentioned session [sid]. *)
Definition asked_for (h : list cobs) (svc sid : N) : Prop :=
  exists e m id, In (XRecv e m) h /\ server_says m {| cm_id := id; cm_type := 13; cm_body := BConnect svc sid |}.
Definition mentioned (h : list cobs) (sid : N) : Prop :=
  (exists svc, asked_for h svc sid) \/ (exists e m, In (XRecv e m) h /\ m_service m <> 0 /\ m_session m = sid).

(** A session ID on the wire: the upper eight bits are reserved. *)
Definition session_field (sid : N) : bytes := [0; sid / 65536 mod 256; sid / 256 mod 256; sid mod 256].

(** A table of services: entries of 29 bytes and a NUL-terminated path, and the entry that ends the table. *)
Definition entry_text (b : bytes) : Prop := exists h p, length h = 29%nat /\ b = h ++ p ++ [0].
Definition last_entry : bytes := repeat 0 10 ++ [4] ++ repeat 0 19.
Definition table_text (b : bytes) : Prop := exists es, Forall entry_text es /\ b = concat es ++ last_entry.

(** A host of a scan report: 24 bytes, the number of ports (16 bits), the ports. *)
Definition host_text (b : bytes) : Prop :=
  exists h ports, length h = 24%nat /\ Forall (fun p => length p = 2%nat) ports /\
    b = h ++ be16 (nlen ports mod 65536) ++ concat ports.

(** The payload of a control message of the client after history [h]: two bytes of message ID, two bytes of message
    type, the body. *)
Inductive client_control (h : list cobs) : bytes -> Prop :=
| CC_ack a b code : length code = 4%nat -> client_control h ([a; b; 0; 0] ++ code)
| CC_ping a b : client_control h [a; b; 0; 1]
| CC_update a b t : table_text t -> client_control h ([a; b; 0; 4] ++ t)
| CC_hup a b sid code : mentioned h sid -> In code [0; 3] ->
    client_control h ([a; b; 0; 5] ++ session_field sid ++ [0; 0; 0; code])
| CC_status a b body : length body = 10%nat -> client_control h ([a; b; 0; 9] ++ body)
| CC_report a b req hosts t : length req = 2%nat -> Forall host_text hosts -> table_text t ->
    client_control h ([a; b; 0; 11] ++ req ++ be32 (nlen hosts mod 4294967296) ++ concat hosts ++ t)
| CC_data_ack a b svc sid len : asked_for h svc sid -> length len = 4%nat ->
    client_control h ([a; b; 0; 12] ++ session_field sid ++ len).

(** REGISTER: message ID 0, UUID, key, MAC address, window size, flags, a NUL-terminated text, the table. *)
Definition register_text (i : identity) (b : bytes) : Prop :=
  exists mac t, length mac = 6%nat /\ table_text t /\
    b = [0; 0; 0; 2] ++ id_uuid i ++ id_key i ++ mac ++ [255; 255] ++ [0; 0; 0; if id_gateway i then 1 else 0] ++
        id_info i ++ [0] ++ t.

(** A frame the client may send after [h]: first REGISTER; then control messages, and data of sessions the server
    asked for. *)
Definition client_frame (i : identity) (h : list cobs) (m : amsg) : Prop :=
  match sent h with
  | [] => m_service m = 0 /\ m_session m = 0 /\ register_text i (m_payload m)
  | _ :: _ =>
      (m_service m = 0 /\ m_session m = 0 /\ client_control h (m_payload m)) \/
      (exists svc sid, asked_for h svc sid /\ m_service m = svc /\ m_session m = sid mod 2 ^ 24 /\ m_payload m <> [])
  end.
