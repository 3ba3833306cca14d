(** What the log of a connection says, written without the functions that make it. *)
From Coq Require Import String NArith ZArith List Bool.
From Verif.Model Require Import Bytes Text Frame Service Control Session Manager Client Logger Journal ConnLog.
From Verif.Spec Require Import ControlSpec.
Import ListNotations.
Local Open Scope N_scope.

Definition own_lines (l : list line) : list jrec := flat_map (fun x => match x with LOwn r => [r] | LSes _ => [] end) l.
Definition session_lines (l : list line) : list jrec := flat_map (fun x => match x with LSes r => [r] | LOwn _ => [] end) l.

(** The names of the message types 0 to 13 *)
Definition names : list bytes :=
  map lit ["ACK"; "PING"; "REGISTER"; "REDIRECT"; "UPDATE"; "HUP"; "RESET_SVC_TABLE"; "SCAN_NETWORK"; "GET_STATUS"; "STATUS";
           "GET_SCAN_REPORT"; "SCAN_REPORT"; "DATA_ACK"; "CONNECT"]%string.
Definition name_of (code : N) : bytes := nth (N.to_nat code) names (lit "UNKNOWN"%string).
Definition article (code : N) : bytes :=
  if code =? 2 then [] else if (code =? 0) || (code =? 4) then lit "an "%string else lit "a "%string.

(** The record of an effect of the connection *)
Inductive tells : cobs -> list jrec -> Prop :=
| tells_queue t m r :
    j_sev r = DEBUG ->
    j_text r = lit "sending "%string ++ article (cm_type m) ++ name_of (cm_type m) ++ (if cm_type m =? 2 then lit " request..."%string else lit " message..."%string) ->
    tells (XQueue t m) [r]
| tells_control e m cm r :
    m_service m = 0 -> server_message (m_payload m) cm -> cm_type cm <> 12 ->
    j_sev r = DEBUG -> j_text r = lit "received control message: "%string ++ name_of (cm_type cm) -> tells (XRecv e m) [r]
| tells_data_ack e m cm : m_service m = 0 -> server_message (m_payload m) cm -> cm_type cm = 12 -> tells (XRecv e m) []
| tells_garbage e m : m_service m = 0 -> (forall cm, ~ server_message (m_payload m) cm) -> tells (XRecv e m) []
| tells_data e m : m_service m <> 0 -> tells (XRecv e m) []
| tells_tick t v0 v1 v2 : tells (XTick t v0 v1 v2) []
| tells_mgr o : tells (XMgr o) []
| tells_cmd c : tells (XCmd c) []
| tells_sent m : tells (XSent m) [].
