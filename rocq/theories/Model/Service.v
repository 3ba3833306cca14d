(** Services, addresses and service identifiers. *)
From Coq Require Import NArith List Bool.
From Verif.Model Require Import Bytes.
Import ListNotations.
Local Open Scope N_scope.

(** src/svc_table/service.rs:30-53 *)
Inductive svc_type :=
| ControlProtocol | RTSP | LockedRTSP | UnknownRTSP | UnsupportedRTSP | HTTP | MJPEG | LockedMJPEG | TCP.

(** src/svc_table/service.rs:20-28, 55-70, `ServiceType::code` *)
Definition svc_code (t : svc_type) : N :=
  match t with
  | ControlProtocol => 0
  | RTSP => 1
  | LockedRTSP => 2
  | UnknownRTSP => 3
  | UnsupportedRTSP => 4
  | HTTP => 5
  | MJPEG => 6
  | LockedMJPEG => 7
  | TCP => 65535
  end.

(** IP addresses as the integer value of their octets ([V4] < 2^32, [V6] < 2^128). *)
Inductive ip := V4 (a : N) | V6 (a : N).

(** A socket address. Flow info and scope of IPv6 addresses are not modelled. *)
Record saddr := { sa_ip : ip; sa_port : N }.

(** src/net/utils.rs:67-115, `IpAddrEx::version` *)
Definition ip_version (i : ip) : N := match i with V4 _ => 4 | V6 _ => 6 end.

(** src/net/utils.rs:67-115, `IpAddrEx::bytes`: left-aligned in 16 bytes *)
Definition ip_bytes (i : ip) : bytes :=
  match i with
  | V4 a => to_be 4 a ++ repeat 0 12
  | V6 a => to_be 16 a
  end.

(** `IpAddr::is_loopback` of the Rust standard library: 127.0.0.0/8 and ::1. *)
Definition is_loopback (i : ip) : bool :=
  match i with
  | V4 a => N.eqb (a / 2 ^ 24) 127
  | V6 a => N.eqb a 1
  end.

(** src/svc_table/service.rs:88-95. A MAC address is the integer value of its six octets; a path is
    the UTF-8 bytes of the string. *)
Record service := {
  s_type : svc_type;
  s_mac : option N;
  s_addr : option saddr;
  s_path : option bytes
}.

(** src/svc_table/service.rs:72-79 *)
Record ident := {
  i_type : svc_type;
  i_mac : option N;
  i_port : option N;
  i_path : option bytes
}.

(** src/svc_table/service.rs:97-107 *)
Definition svc_control : service :=
  {| s_type := ControlProtocol; s_mac := None; s_addr := None; s_path := None |}.

(** src/svc_table/service.rs:109-117 *)
Definition svc_rtsp (mac : N) (addr : saddr) (path : bytes) : service :=
  {| s_type := RTSP; s_mac := Some mac; s_addr := Some addr; s_path := Some path |}.
(** src/svc_table/service.rs:119-127 *)
Definition svc_locked_rtsp (mac : N) (addr : saddr) (path : option bytes) : service :=
  {| s_type := LockedRTSP; s_mac := Some mac; s_addr := Some addr; s_path := path |}.
(** src/svc_table/service.rs:129-137 *)
Definition svc_unknown_rtsp (mac : N) (addr : saddr) : service :=
  {| s_type := UnknownRTSP; s_mac := Some mac; s_addr := Some addr; s_path := None |}.
(** src/svc_table/service.rs:139-147 *)
Definition svc_unsupported_rtsp (mac : N) (addr : saddr) (path : bytes) : service :=
  {| s_type := UnsupportedRTSP; s_mac := Some mac; s_addr := Some addr; s_path := Some path |}.
(** src/svc_table/service.rs:149-157 *)
Definition svc_http (mac : N) (addr : saddr) : service :=
  {| s_type := HTTP; s_mac := Some mac; s_addr := Some addr; s_path := None |}.
(** src/svc_table/service.rs:159-167 *)
Definition svc_mjpeg (mac : N) (addr : saddr) (path : bytes) : service :=
  {| s_type := MJPEG; s_mac := Some mac; s_addr := Some addr; s_path := Some path |}.
(** src/svc_table/service.rs:169-177 *)
Definition svc_locked_mjpeg (mac : N) (addr : saddr) (path : option bytes) : service :=
  {| s_type := LockedMJPEG; s_mac := Some mac; s_addr := Some addr; s_path := path |}.
(** src/svc_table/service.rs:179-187 *)
Definition svc_tcp (mac : N) (addr : saddr) : service :=
  {| s_type := TCP; s_mac := Some mac; s_addr := Some addr; s_path := None |}.

(** src/svc_table/service.rs:189-192 (and 82-85 for identifiers) *)
Definition type_is_control (t : svc_type) : bool :=
  match t with ControlProtocol => true | _ => false end.
Definition svc_is_control (s : service) : bool := type_is_control (s_type s).

(** src/svc_table/service.rs:214-217 *)
Definition svc_port (s : service) : option N := option_map sa_port (s_addr s).

(** src/svc_table/service.rs:224-233, `to_service_identifier`: the IP address is not part of it. *)
Definition to_ident (s : service) : ident :=
  {| i_type := s_type s; i_mac := s_mac s; i_port := svc_port s; i_path := s_path s |}.

(** Decidable equality (derived `PartialEq`). *)
Definition svc_type_eq_dec (a b : svc_type) : {a = b} + {a <> b}.
Proof. decide equality. Defined.
Definition ip_eq_dec (a b : ip) : {a = b} + {a <> b}.
Proof. decide equality; apply N.eq_dec. Defined.
Definition saddr_eq_dec (a b : saddr) : {a = b} + {a <> b}.
Proof. decide equality; [apply N.eq_dec | apply ip_eq_dec]. Defined.
Definition obytes_eq_dec (a b : option bytes) : {a = b} + {a <> b}.
Proof. decide equality. apply list_eq_dec, N.eq_dec. Defined.
Definition oN_eq_dec (a b : option N) : {a = b} + {a <> b}.
Proof. decide equality. apply N.eq_dec. Defined.
Definition osaddr_eq_dec (a b : option saddr) : {a = b} + {a <> b}.
Proof. decide equality. apply saddr_eq_dec. Defined.
Definition service_eq_dec (a b : service) : {a = b} + {a <> b}.
Proof. decide equality; [apply obytes_eq_dec | apply osaddr_eq_dec | apply oN_eq_dec | apply svc_type_eq_dec]. Defined.
Definition ident_eq_dec (a b : ident) : {a = b} + {a <> b}.
Proof. decide equality; [apply obytes_eq_dec | apply oN_eq_dec | apply oN_eq_dec | apply svc_type_eq_dec]. Defined.
