(** Arrow Control Protocol messages: encoders, decoders, lengths and the message factory. *)
From Coq Require Import NArith List Bool.
From Verif.Model Require Import Bytes Utf8 Frame Service.
Import ListNotations.
Local Open Scope N_scope.

(** src/net/arrow/proto/msg/control/mod.rs:59-63 *)
Definition EC_NO_ERROR : N := 0.
Definition EC_UNSUPPORTED_PROTOCOL_VERSION : N := 1.
Definition EC_UNAUTHORIZED : N := 2.
Definition EC_CONNECTION_ERROR : N := 3.
Definition EC_INTERNAL_SERVER_ERROR : N := 4294967295.

(** src/net/arrow/proto/msg/control/mod.rs:84-104 *)
Inductive ctype :=
| ACK | PING | REGISTER | REDIRECT | UPDATE | HUP | RESET_SVC_TABLE | SCAN_NETWORK
| GET_STATUS | STATUS | UNKNOWN | GET_SCAN_REPORT | SCAN_REPORT | DATA_ACK | CONNECT.

(** src/net/arrow/proto/msg/control/mod.rs:69-82, 106-126: `ControlMessageType::code`; the UNKNOWN
    type has no code (panic) and is represented by [None]. *)
Definition ctype_code (t : ctype) : option N :=
  match t with
  | ACK => Some 0 | PING => Some 1 | REGISTER => Some 2 | REDIRECT => Some 3 | UPDATE => Some 4
  | HUP => Some 5 | RESET_SVC_TABLE => Some 6 | SCAN_NETWORK => Some 7 | GET_STATUS => Some 8
  | STATUS => Some 9 | GET_SCAN_REPORT => Some 10 | SCAN_REPORT => Some 11 | DATA_ACK => Some 12
  | CONNECT => Some 13
  | UNKNOWN => None
  end.

(** src/net/arrow/proto/msg/control/mod.rs:144-163, `ControlMessageHeader::message_type` *)
Definition message_type (code : N) : ctype :=
  match code with
  | 0 => ACK | 1 => PING | 2 => REGISTER | 3 => REDIRECT | 4 => UPDATE
  | 5 => HUP | 6 => RESET_SVC_TABLE | 7 => SCAN_NETWORK | 8 => GET_STATUS
  | 9 => STATUS | 10 => GET_SCAN_REPORT | 11 => SCAN_REPORT | 12 => DATA_ACK
  | 13 => CONNECT
  | _ => UNKNOWN
  end.

(** ** Simple service table *)

(** src/net/arrow/proto/msg/control/svc_table.rs:79-90 (`Element`) as an (id, service) pair. A table
    is the list of its elements in the iteration order of the hash map. *)
Definition element := (N * service)%type.

(** `HashMap::insert` on an association list (position of a new key is irrelevant: the iteration
    order of the map is arbitrary, see the theorems). *)
Fixpoint assoc_insert (k : N) (v : service) (l : list element) : list element :=
  match l with
  | [] => [(k, v)]
  | (k', v') :: l' => if N.eqb k k' then (k, v) :: l' else (k', v') :: assoc_insert k v l'
  end.

(** src/net/arrow/proto/msg/control/svc_table.rs:117-130, `SimpleServiceTable::from` *)
Definition table_of_services (l : list element) : list element :=
  fold_left (fun m e => assoc_insert (fst e) (snd e) m) l [].

(** src/net/arrow/proto/msg/control/svc_table.rs:41-76, `ElementHeader` (29 bytes): missing MAC and
    address are encoded as zeroes. *)
Definition element_header_encode (e : element) : bytes :=
  let '(id, svc) := e in
  let mac := match s_mac svc with Some m => m | None => 0 end in
  let addr := match s_addr svc with Some a => a | None => {| sa_ip := V4 0; sa_port := 0 |} end in
  to_be 2 id ++ to_be 2 (svc_code (s_type svc)) ++ to_be 6 mac ++ to_be 1 (ip_version (sa_ip addr))
  ++ ip_bytes (sa_ip addr) ++ to_be 2 (sa_port addr).

(** `self.service.path().unwrap_or("")` *)
Definition path_or_empty (svc : service) : bytes :=
  match s_path svc with Some p => p | None => [] end.

(** src/net/arrow/proto/msg/control/svc_table.rs:92-101, `Element::encode` *)
Definition element_encode (e : element) : bytes :=
  element_header_encode e ++ path_or_empty (snd e) ++ [0].

(** src/net/arrow/proto/msg/control/svc_table.rs:103-109, `Element::len` *)
Definition element_len (e : element) : N := 29 + (nlen (path_or_empty (snd e)) + 1).

(** src/net/arrow/proto/msg/control/svc_table.rs:160-168, `SimpleServiceTable::encode` *)
Definition table_encode (t : list element) : bytes :=
  concat (map element_encode t) ++ element_encode (0, svc_control).

(** src/net/arrow/proto/msg/control/svc_table.rs:170-182, `SimpleServiceTable::len` *)
Definition table_len (t : list element) : N :=
  fold_left (fun acc e => acc + element_len e) t 0 + element_len (0, svc_control).

(** ** Scan report *)

(** src/scanner/result/host.rs:24-32 with the port set in iteration order. *)
Record host := { hr_flags : N; hr_mac : N; hr_ip : ip; hr_ports : list N }.

(** src/net/arrow/proto/msg/control/scan_report/host_table.rs:26-62, 76-84: 26-byte header with the
    port count cast to u16, then the ports. *)
Definition host_encode (h : host) : bytes :=
  to_be 1 (hr_flags h) ++ to_be 6 (hr_mac h) ++ to_be 1 (ip_version (hr_ip h)) ++ ip_bytes (hr_ip h)
  ++ to_be 2 (u16 (nlen (hr_ports h))) ++ concat (map (to_be 2) (hr_ports h)).

(** src/net/arrow/proto/msg/control/scan_report/host_table.rs:86-92 *)
Definition host_len (h : host) : N := 26 + nlen (hr_ports h) * 2.

(** src/net/arrow/proto/msg/control/scan_report/host_table.rs:94-142 *)
Definition host_table_encode (hs : list host) : bytes :=
  to_be 4 (u32 (nlen hs)) ++ concat (map host_encode hs).

(** src/net/arrow/proto/msg/control/scan_report/host_table.rs:144-154 *)
Definition host_table_len (hs : list host) : N := fold_left (fun acc h => acc + host_len h) hs 4.

(** src/net/arrow/proto/msg/control/scan_report/mod.rs:63-89, `ScanReportMessage::new`: the scanned
    services that have an ID, in iteration order of the scan result. *)
Definition scan_report_services (get_id : ident -> option N) (svcs : list service) : list element :=
  table_of_services
    (flat_map (fun s => match get_id (to_ident s) with Some id => [(id, s)] | None => [] end) svcs).

(** ** Message bodies *)
Inductive cbody :=
| BEmpty
| BAck (err : N)
| BConnect (service_id session_id : N)
| BDataAck (session_id length : N)
| BHup (session_id error_code : N)
| BRedirect (target : bytes)
| BStatus (request_id flags active : N)
| BRegister (uuid key : bytes) (mac window flags : N) (info : bytes) (table : list element)
| BUpdate (table : list element)
| BScanReport (request_id : N) (hosts : list host) (table : list element).

(** The encoders of src/net/arrow/proto/msg/control/: ack.rs:39-47, connect.rs:35-44,
    data_ack.rs:45-54, hup.rs:45-54, redirect.rs:29-34, status.rs:48-58, register.rs:50-62 and
    108-117, update.rs:33-37, scan_report/mod.rs:46-54 and 91-98, mod.rs:200-202. *)
Definition body_encode (b : cbody) : bytes :=
  match b with
  | BEmpty => []
  | BAck err => to_be 4 err
  | BConnect svc sess => to_be 2 svc ++ to_be 4 sess
  | BDataAck sess len => to_be 4 sess ++ to_be 4 len
  | BHup sess err => to_be 4 sess ++ to_be 4 err
  | BRedirect target => target ++ [0]
  | BStatus req flags active => to_be 2 req ++ to_be 4 flags ++ to_be 4 active
  | BRegister uuid key mac window flags info table =>
      (uuid ++ key ++ to_be 6 mac ++ to_be 2 window ++ to_be 4 flags) ++ info ++ [0] ++ table_encode table
  | BUpdate table => table_encode table
  | BScanReport req hosts table => to_be 2 req ++ host_table_encode hosts ++ table_encode table
  end.

(** `MessageBody::len` of the same files (mem::size_of of the packed structs: 4, 6, 8, 8, 10, 44, 2). *)
Definition body_len (b : cbody) : N :=
  match b with
  | BEmpty => 0
  | BAck _ => 4
  | BConnect _ _ => 6
  | BDataAck _ _ => 8
  | BHup _ _ => 8
  | BRedirect target => nlen target + 1
  | BStatus _ _ _ => 10
  | BRegister _ _ _ _ _ info table => 44 + nlen info + 1 + table_len table
  | BUpdate table => table_len table
  | BScanReport _ hosts table => 2 + host_table_len hosts + table_len table
  end.

(** src/net/arrow/proto/msg/control/mod.rs:128-136, 212-218. The type is kept as its u16 code. *)
Record cmsg := { cm_id : N; cm_type : N; cm_body : cbody }.

(** src/net/arrow/proto/msg/control/mod.rs:166-175, 418-423, `ControlMessage::encode` *)
Definition cmsg_encode (m : cmsg) : bytes := to_be 2 (cm_id m) ++ to_be 2 (cm_type m) ++ body_encode (cm_body m).

(** src/net/arrow/proto/msg/control/mod.rs:425-429 *)
Definition cmsg_len (m : cmsg) : N := 4 + body_len (cm_body m).

(** src/net/arrow/proto/msg/mod.rs:144-148: control messages travel as service 0, session 0. *)
Definition amsg_of_cmsg (m : cmsg) : amsg := amsg_new 0 0 (cmsg_encode m).

(** ** Decoding. `FromBytes::from_bytes` returns Err, Ok(None) or Ok(Some). *)
Inductive fromb (A : Type) : Type := FErr | FNone | FSome (a : A).
Arguments FErr {A}. Arguments FNone {A}. Arguments FSome {A} _.

(** src/net/arrow/proto/msg/control/ack.rs:57-75 *)
Definition ack_from_bytes (b : bytes) : fromb cbody :=
  if negb (Nat.eqb (length b) 4) then FErr else FSome (BAck (of_be (field b 0 4))).

(** src/net/arrow/proto/msg/control/connect.rs:54-73 *)
Definition connect_from_bytes (b : bytes) : fromb cbody :=
  if negb (Nat.eqb (length b) 6) then FErr
  else FSome (BConnect (of_be (field b 0 2)) (of_be (field b 2 4))).

(** src/net/arrow/proto/msg/control/data_ack.rs:64-83 *)
Definition data_ack_from_bytes (b : bytes) : fromb cbody :=
  if negb (Nat.eqb (length b) 8) then FErr
  else FSome (BDataAck (of_be (field b 0 4)) (of_be (field b 4 4))).

(** src/net/arrow/proto/msg/control/hup.rs:64-83 *)
Definition hup_from_bytes (b : bytes) : fromb cbody :=
  if negb (Nat.eqb (length b) 8) then FErr
  else FSome (BHup (of_be (field b 0 4)) (of_be (field b 4 4))).

(** src/net/arrow/proto/msg/control/redirect.rs:44-64. `bytes[length - 1]` is in bounds because the
    length is checked first. *)
Definition redirect_from_bytes (b : bytes) : fromb cbody :=
  let n := length b in
  if Nat.eqb n 0 then FErr
  else
    match nth_error b (n - 1) with
    | None => FNone (* out-of-bounds index: would panic *)
    | Some last =>
        if negb (N.eqb last 0) then FErr
        else
          let t := firstn (n - 1) b in
          if utf8_valid t then FSome (BRedirect t) else FErr
    end.

(** src/net/arrow/proto/msg/control/mod.rs:408-415 *)
Definition empty_from_bytes (b : bytes) : fromb cbody :=
  match b with [] => FSome BEmpty | _ => FErr end.

(** src/net/arrow/proto/msg/control/mod.rs:363-406: `Ok(None)` is a panic. *)
Definition lift_from (f : fromb cbody) : result cbody :=
  match f with FSome b => ROk b | FErr => RErr | FNone => RPanic end.

(** src/net/arrow/proto/msg/control/mod.rs:338-361, `decode_body` *)
Definition decode_body (t : ctype) (b : bytes) : result cbody :=
  match t with
  | ACK => lift_from (ack_from_bytes b)
  | CONNECT => lift_from (connect_from_bytes b)
  | DATA_ACK => lift_from (data_ack_from_bytes b)
  | REDIRECT => lift_from (redirect_from_bytes b)
  | HUP => lift_from (hup_from_bytes b)
  | PING | RESET_SVC_TABLE | SCAN_NETWORK | GET_STATUS | GET_SCAN_REPORT => lift_from (empty_from_bytes b)
  | UNKNOWN => RErr
  | REGISTER | UPDATE | STATUS | SCAN_REPORT => RErr
  end.

(** src/net/arrow/proto/msg/control/mod.rs:177-192, 433-451, `ControlMessage::from_bytes`. The length
    assertion of the header decoder holds because the slice has exactly four bytes. *)
Definition cmsg_from_bytes (b : bytes) : result cmsg :=
  if Nat.ltb (length b) 4 then RErr
  else
    let h := firstn 4 b in
    let id := of_be (field h 0 2) in
    let code := of_be (field h 2 2) in
    match decode_body (message_type code) (skipn 4 b) with
    | ROk body => ROk {| cm_id := id; cm_type := code; cm_body := body |}
    | RErr => RErr
    | RPanic => RPanic
    end.

(** ** Constructors: src/net/arrow/proto/msg/control/mod.rs:220-325 *)
Definition mk_ack (id err : N) : cmsg := {| cm_id := id; cm_type := 0; cm_body := BAck err |}.
(** data_ack.rs:35-43: session masked to 24 bits *)
Definition mk_data_ack (id sess len : N) : cmsg :=
  {| cm_id := id; cm_type := 12; cm_body := BDataAck (N.land sess 16777215) len |}.
(** hup.rs:35-43: session masked to 24 bits *)
Definition mk_hup (id sess err : N) : cmsg :=
  {| cm_id := id; cm_type := 5; cm_body := BHup (N.land sess 16777215) err |}.
Definition mk_status (id req flags active : N) : cmsg :=
  {| cm_id := id; cm_type := 9; cm_body := BStatus req flags active |}.
Definition mk_ping (id : N) : cmsg := {| cm_id := id; cm_type := 1; cm_body := BEmpty |}.
Definition mk_update (id : N) (t : list element) : cmsg := {| cm_id := id; cm_type := 4; cm_body := BUpdate t |}.
Definition mk_scan_report (id req : N) (hosts : list host) (t : list element) : cmsg :=
  {| cm_id := id; cm_type := 11; cm_body := BScanReport req hosts t |}.

(** src/net/arrow/proto/msg/control/register.rs:73 *)
Definition FLAG_GATEWAY_MODE : N := 1.

(** src/net/arrow/proto/msg/control/mod.rs:275-305: the two assertions on the window are panics. *)
Definition mk_register (id : N) (uuid key : bytes) (mac window : N) (gateway : bool)
    (t : list element) (info : bytes) : result cmsg :=
  let flags := if gateway then N.lor 0 FLAG_GATEWAY_MODE else 0 in
  if N.eqb window 0 then RPanic
  else if N.ltb 65536 window then RPanic
  else ROk {| cm_id := id; cm_type := 2;
              cm_body := BRegister uuid key mac (u16 (window - 1)) flags info t |}.

(** ** Message factory: src/net/arrow/proto/msg/control/mod.rs:453-547. The shared `AtomicUsize`
    counter is a number modulo 2^64 (64-bit target). *)
Definition factory := N.
Definition factory_new : factory := 0.

(** src/net/arrow/proto/msg/control/mod.rs:467-470, `next_id` *)
Definition next_id (f : factory) : N * factory := (u16 f, (f + 1) mod 2 ^ 64).

(** One call of a factory method; clones share the counter, so the calls of all clones form one
    sequence. *)
Inductive fcall :=
| FAck (msg_id err : N)
| FDataAck (sess len : N)
| FHup (sess err : N)
| FStatus (req flags active : N)
| FScanReport (req : N) (hosts : list host) (t : list element)
| FPing
| FRegister (uuid key : bytes) (mac window : N) (gateway : bool) (t : list element) (info : bytes)
| FUpdate (t : list element).

(** src/net/arrow/proto/msg/control/mod.rs:472-546 *)
Definition factory_call (f : factory) (c : fcall) : result cmsg * factory :=
  match c with
  | FAck id err => (ROk (mk_ack id err), f)
  | FDataAck s l => let '(id, f') := next_id f in (ROk (mk_data_ack id s l), f')
  | FHup s e => let '(id, f') := next_id f in (ROk (mk_hup id s e), f')
  | FStatus r fl a => let '(id, f') := next_id f in (ROk (mk_status id r fl a), f')
  | FScanReport r h t => let '(id, f') := next_id f in (ROk (mk_scan_report id r h t), f')
  | FPing => let '(id, f') := next_id f in (ROk (mk_ping id), f')
  | FRegister u k m w g t i => let '(id, f') := next_id f in (mk_register id u k m w g t i, f')
  | FUpdate t => let '(id, f') := next_id f in (ROk (mk_update id t), f')
  end.

(** A sequence of factory calls. *)
Fixpoint factory_run (f : factory) (cs : list fcall) : list (result cmsg) :=
  match cs with
  | [] => []
  | c :: cs' => let '(m, f') := factory_call f c in m :: factory_run f' cs'
  end.
