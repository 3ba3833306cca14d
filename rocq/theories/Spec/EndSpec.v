(** Why a connection ends. *)
From Coq Require Import NArith ZArith List Bool.
From Verif.Model Require Import Bytes Frame Service Control Session Manager Client MainTask.
From Verif.Spec Require Import ControlSpec ManagerSpec ClientSpec.
Import ListNotations.
Local Open Scope N_scope.

(** [ends_for e h r]: the connection with the history [h] rightly ended with the result [r] at the event [e]. *)
Inductive ends_for (e : kev) (h : list cobs) : cresult -> Prop :=
(** the server has not acknowledged REGISTER or a PING for 20 seconds *)
| Late t a b d h1 o t1 id :
    e = KTick t a b d -> h = h1 ++ XTick t a b d :: o -> In (t1, id) (outstanding h1) -> (20 * SEC <= t - t1)%Z ->
    ends_for e h (Failed ConnectionError)
(** the first message of the server does not acknowledge REGISTER, or refuses it *)
| Refused h1 en m :
    h = h1 ++ [XRecv en m] -> received h1 = [] -> read_ack m <> Some (REGISTER_ID, 0) ->
    ends_for e h (Failed (match read_ack m with
                        | Some (id, code) => if id =? REGISTER_ID then verdict code else OtherError
                        | None => OtherError
                        end))
(** diagnostic mode: registration was all that was wanted *)
| Diagnostic h1 en m :
    h = h1 ++ [XRecv en m] -> received h1 = [] -> read_ack m = Some (REGISTER_ID, 0) -> e_diagnostic en = true ->
    ends_for e h (Redirected [])
(** the server sent the client elsewhere *)
| Elsewhere h1 en m id target :
    h = h1 ++ [XRecv en m] -> registered h1 = true ->
    server_says m {| cm_id := id; cm_type := 3; cm_body := BRedirect target |} ->
    ends_for e h (Redirected target)
(** the server sent a control message that no server may send *)
| Malformed h1 en m :
    h = h1 ++ [XRecv en m] -> registered h1 = true -> m_service m = 0 ->
    (forall cm, ~ server_message (m_payload m) cm) -> ends_for e h (Failed OtherError)
(** the server acknowledged something other than the oldest unacknowledged message *)
| WrongAck h1 en m id code :
    h = h1 ++ [XRecv en m] -> registered h1 = true -> read_ack m = Some (id, code) ->
    (forall t rest, outstanding h1 <> (t, id) :: rest) -> ends_for e h (Failed OtherError)
(** the network failed, or the server closed the connection *)
| StreamFailed items : e = KPoll items -> In SFail items -> ends_for e h (Failed OtherError)
| StreamEnded items : e = KPoll items -> In SEnd items -> ends_for e h (Failed ConnectionError)
| SinkFailed : e = KSinkFailed -> ends_for e h (Failed OtherError).

(** ** A good server *)

(** The network does not fail. *)
Definition sound_event (e : kev) : Prop :=
  match e with
  | KPoll items => ~ In SFail items /\ ~ In SEnd items
  | KSinkFailed => False
  | _ => True
  end.
(** What the server may say after the history [h]. *)
Definition proper (h : list cobs) (en : env) (m : amsg) : Prop :=
  (received h = [] -> read_ack m = Some (REGISTER_ID, 0) /\ e_diagnostic en = false) /\
  (received h <> [] -> m_service m = 0 ->
     exists cm, server_message (m_payload m) cm /\ cm_type cm <> 3 /\
       (cm_type cm = 0 -> exists t rest, outstanding h = (t, cm_id cm) :: rest)).
(** Every message of the server was proper when it came. *)
Definition polite (h : list cobs) : Prop :=
  forall h1 en m h2, h = h1 ++ XRecv en m :: h2 -> proper h1 en m.
(** No message of the client was unacknowledged for 20 seconds when the client looked. *)
Definition prompt (h : list cobs) : Prop :=
  forall h1 t a b d h2 t1 id, h = h1 ++ XTick t a b d :: h2 -> In (t1, id) (outstanding h1) -> (t - t1 < 20 * SEC)%Z.

(** The events of the current connection among those of the main task. *)
Definition conn_events (es : list mtev) : list kev :=
  flat_map (fun e => match e with EvConn e _ _ => [e] | _ => [] end) es.
