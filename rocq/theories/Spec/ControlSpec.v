(** Independent description of the Arrow Control Protocol messages: the grammar of what a server may
    send, and readers for what the client sends. None of these functions uses the model's encoders or
    decoders. *)
From Coq Require Import NArith List Bool.
From Verif.Model Require Import Bytes Frame Service Control.
Import ListNotations.
Local Open Scope N_scope.

(** Big-endian fields, written out. *)
Definition be16 (x : N) : bytes := [x / 256; x mod 256].
Definition be32 (x : N) : bytes := [x / 16777216; x / 65536 mod 256; x / 256 mod 256; x mod 256].

(** UTF-8 as the encoding of Unicode scalar values. *)
Definition scalar (c : N) : Prop := c < 55296 \/ 57344 <= c < 1114112.
Definition utf8_char (c : N) : bytes :=
  if N.ltb c 128 then [c]
  else if N.ltb c 2048 then [192 + c / 64; 128 + c mod 64]
  else if N.ltb c 65536 then [224 + c / 4096; 128 + c / 64 mod 64; 128 + c mod 64]
  else [240 + c / 262144; 128 + c / 4096 mod 64; 128 + c / 64 mod 64; 128 + c mod 64].
Definition utf8_text (b : bytes) : Prop :=
  exists cps, Forall scalar cps /\ b = concat (map utf8_char cps).

(** The messages a server may send, byte by byte. *)
Inductive server_message : bytes -> cmsg -> Prop :=
| SM_ack id err : id < 2 ^ 16 -> err < 2 ^ 32 ->
    server_message (be16 id ++ [0; 0] ++ be32 err) {| cm_id := id; cm_type := 0; cm_body := BAck err |}
| SM_empty id code : id < 2 ^ 16 -> In code [1; 6; 7; 8; 10] ->
    server_message (be16 id ++ [0; code]) {| cm_id := id; cm_type := code; cm_body := BEmpty |}
| SM_redirect id target : id < 2 ^ 16 -> utf8_text target ->
    server_message (be16 id ++ [0; 3] ++ target ++ [0])
                   {| cm_id := id; cm_type := 3; cm_body := BRedirect target |}
| SM_hup id sess err : id < 2 ^ 16 -> sess < 2 ^ 32 -> err < 2 ^ 32 ->
    server_message (be16 id ++ [0; 5] ++ be32 sess ++ be32 err)
                   {| cm_id := id; cm_type := 5; cm_body := BHup sess err |}
| SM_data_ack id sess len : id < 2 ^ 16 -> sess < 2 ^ 32 -> len < 2 ^ 32 ->
    server_message (be16 id ++ [0; 12] ++ be32 sess ++ be32 len)
                   {| cm_id := id; cm_type := 12; cm_body := BDataAck sess len |}
| SM_connect id svc sess : id < 2 ^ 16 -> svc < 2 ^ 16 -> sess < 2 ^ 32 ->
    server_message (be16 id ++ [0; 13] ++ be16 svc ++ be32 sess)
                   {| cm_id := id; cm_type := 13; cm_body := BConnect svc sess |}.

(** Field lengths the Rust array types guarantee. *)
Definition fixed_arrays (b : cbody) : Prop :=
  match b with
  | BRegister uuid key _ _ _ _ _ => length uuid = 16%nat /\ length key = 16%nat
  | _ => True
  end.

(** ** Readers for what the client sends *)

(** Take [n] bytes. *)
Definition take (n : nat) (b : bytes) : option (bytes * bytes) :=
  if Nat.leb n (length b) then Some (firstn n b, skipn n b) else None.

(** Value of a big-endian field. *)
Definition value (b : bytes) : N := fold_left (fun acc x => acc * 256 + x) b 0.

(** Read up to (and consume) the first NUL byte. *)
Fixpoint cstring (b : bytes) : option (bytes * bytes) :=
  match b with
  | [] => None
  | x :: b' =>
      if N.eqb x 0 then Some ([], b')
      else match cstring b' with Some (s, r) => Some (x :: s, r) | None => None end
  end.

(** A table entry as the server sees it. *)
Record entry := { e_id : N; e_type : N; e_mac : N; e_ip : option ip; e_port : N; e_path : bytes }.

Definition read_ip (version : N) (b : bytes) : option ip :=
  if N.eqb version 4 then Some (V4 (value (firstn 4 b)))
  else if N.eqb version 6 then Some (V6 (value b))
  else None.

(** One entry: 29 bytes and a NUL-terminated path. *)
Definition read_entry (b : bytes) : option (entry * bytes) :=
  match take 29 b with
  | None => None
  | Some (h, r) =>
      match cstring r with
      | None => None
      | Some (path, r') =>
          Some ({| e_id := value (firstn 2 h);
                   e_type := value (firstn 2 (skipn 2 h));
                   e_mac := value (firstn 6 (skipn 4 h));
                   e_ip := read_ip (value (firstn 1 (skipn 10 h))) (firstn 16 (skipn 11 h));
                   e_port := value (skipn 27 h);
                   e_path := path |}, r')
      end
  end.

(** Entries up to the control entry (ID 0, type 0), which is not returned. *)
Fixpoint read_entries (fuel : nat) (b : bytes) : option (list entry * bytes) :=
  match fuel with
  | O => None
  | S fuel' =>
      match read_entry b with
      | None => None
      | Some (e, r) =>
          if N.eqb (e_id e) 0 && N.eqb (e_type e) 0 then Some ([], r)
          else match read_entries fuel' r with
               | Some (es, r') => Some (e :: es, r')
               | None => None
               end
      end
  end.
Definition read_table (b : bytes) : option (list entry * bytes) := read_entries (length b) b.

(** What the server should learn about a service. A missing path is an empty string; a service
    without MAC or address (only the control service) shows as zeroes. *)
Definition announce (e : N * service) : entry :=
  let '(id, s) := e in
  {| e_id := id;
     e_type := svc_code (s_type s);
     e_mac := match s_mac s with Some m => m | None => 0 end;
     e_ip := Some (match s_addr s with Some a => sa_ip a | None => V4 0 end);
     e_port := match s_addr s with Some a => sa_port a | None => 0 end;
     e_path := match s_path s with Some p => p | None => [] end |}.

(** Range conditions that the Rust types guarantee. *)
Definition wf_ip (i : ip) : Prop := match i with V4 a => a < 2 ^ 32 | V6 a => a < 2 ^ 128 end.
Definition wf_saddr (a : saddr) : Prop := wf_ip (sa_ip a) /\ sa_port a < 2 ^ 16.
Definition wf_service (s : service) : Prop :=
  (forall m, s_mac s = Some m -> m < 2 ^ 48) /\
  (forall a, s_addr s = Some a -> wf_saddr a) /\
  (forall p, s_path s = Some p -> wf_bytes p).
Definition no_nul (b : bytes) : Prop := ~ In 0 b.
Definition nul_free_path (s : service) : Prop := forall p, s_path s = Some p -> no_nul p.

(** A table the client may announce: IDs are 16-bit; no entry looks like the terminating control
    entry. *)
Definition wf_entry (e : N * service) : Prop :=
  fst e < 2 ^ 16 /\ (fst e <> 0 \/ s_type (snd e) <> ControlProtocol) /\ wf_service (snd e).

(** ** REGISTER *)
Record registration := {
  g_uuid : bytes; g_key : bytes; g_mac : N; g_window : N; g_gateway : bool; g_info : bytes;
  g_table : list entry
}.
Definition read_register (b : bytes) : option (N * registration) :=
  match take 48 b with
  | None => None
  | Some (h, r) =>
      if negb (N.eqb (value (firstn 2 (skipn 2 h))) 2) then None
      else
        match cstring r with
        | None => None
        | Some (info, r') =>
            match read_table r' with
            | Some (es, []) =>
                Some (value (firstn 2 h),
                      {| g_uuid := firstn 16 (skipn 4 h);
                         g_key := firstn 16 (skipn 20 h);
                         g_mac := value (firstn 6 (skipn 36 h));
                         g_window := value (firstn 2 (skipn 42 h)) + 1;
                         g_gateway := N.odd (value (firstn 4 (skipn 44 h)));
                         g_info := info;
                         g_table := es |})
            | _ => None
            end
        end
  end.

(** ** UPDATE *)
Definition read_update (b : bytes) : option (N * list entry) :=
  match take 4 b with
  | None => None
  | Some (h, r) =>
      if negb (N.eqb (value (skipn 2 h)) 4) then None
      else match read_table r with
           | Some (es, []) => Some (value (firstn 2 h), es)
           | _ => None
           end
  end.

(** ** SCAN_REPORT *)
Record host_entry := { he_flags : N; he_mac : N; he_ip : option ip; he_ports : list N }.

Fixpoint read_ports (n : nat) (b : bytes) : option (list N * bytes) :=
  match n with
  | O => Some ([], b)
  | S n' =>
      match take 2 b with
      | None => None
      | Some (p, r) =>
          match read_ports n' r with Some (ps, r') => Some (value p :: ps, r') | None => None end
      end
  end.

Definition read_host (b : bytes) : option (host_entry * bytes) :=
  match take 26 b with
  | None => None
  | Some (h, r) =>
      match read_ports (N.to_nat (value (skipn 24 h))) r with
      | None => None
      | Some (ps, r') =>
          Some ({| he_flags := value (firstn 1 h);
                   he_mac := value (firstn 6 (skipn 1 h));
                   he_ip := read_ip (value (firstn 1 (skipn 7 h))) (firstn 16 (skipn 8 h));
                   he_ports := ps |}, r')
      end
  end.

Fixpoint read_hosts (n : nat) (b : bytes) : option (list host_entry * bytes) :=
  match n with
  | O => Some ([], b)
  | S n' =>
      match read_host b with
      | None => None
      | Some (h, r) =>
          match read_hosts n' r with Some (hs, r') => Some (h :: hs, r') | None => None end
      end
  end.

Record report := { rp_id : N; rp_request : N; rp_hosts : list host_entry; rp_services : list entry }.
Definition read_report (b : bytes) : option report :=
  match take 10 b with
  | None => None
  | Some (h, r) =>
      if negb (N.eqb (value (firstn 2 (skipn 2 h))) 11) then None
      else
        match read_hosts (N.to_nat (value (skipn 6 h))) r with
        | None => None
        | Some (hs, r') =>
            match read_table r' with
            | Some (es, []) =>
                Some {| rp_id := value (firstn 2 h); rp_request := value (firstn 2 (skipn 4 h));
                        rp_hosts := hs; rp_services := es |}
            | _ => None
            end
        end
  end.

Definition announce_host (h : host) : host_entry :=
  {| he_flags := hr_flags h; he_mac := hr_mac h; he_ip := Some (hr_ip h); he_ports := hr_ports h |}.
Definition wf_host (h : host) : Prop :=
  hr_flags h < 2 ^ 8 /\ hr_mac h < 2 ^ 48 /\ wf_ip (hr_ip h) /\
  Forall (fun p => p < 2 ^ 16) (hr_ports h).

(** ** Message factory *)
Definition consumes_id (c : fcall) : bool := match c with FAck _ _ => false | _ => true end.
(** Number of IDs consumed by a list of calls. *)
Definition consumed (cs : list fcall) : nat := length (filter consumes_id cs).

(** The codes of the message types on the wire *)
Definition wire_codes : list (N * ctype) :=
  [(0, ACK); (1, PING); (2, REGISTER); (3, REDIRECT); (4, UPDATE); (5, HUP); (6, RESET_SVC_TABLE); (7, SCAN_NETWORK); (8, GET_STATUS);
   (9, STATUS); (10, GET_SCAN_REPORT); (11, SCAN_REPORT); (12, DATA_ACK); (13, CONNECT)].
