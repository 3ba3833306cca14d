(** The bytes hashed for a service identifier. *)
From Coq Require Import NArith List Bool.
From Verif.Model Require Import Bytes Service.
Import ListNotations.
Local Open Scope N_scope.

(** The calls of a `Hasher` (core::hash): the typed ones default to `write` with the bytes in memory order.
    [HSize] is `write_usize`, which no `Hash` of the identifier calls; it is what `Hash` of a slice, of a
    `Vec` or of an enum without `repr` would call. *)
Inductive hcall := HBytes (b : bytes) | HU8 (n : N) | HU16 (n : N) | HU32 (n : N) | HSize (n : N).

Section Machine.
  (** Bytes of a pointer, and whether the most significant byte of a number comes first in memory. *)
  Variable width : nat.
  Variable big : bool.

  (** `to_ne_bytes` of a [k]-byte number *)
  Definition ne_bytes (k : nat) (n : N) : bytes := if big then to_be k n else rev (to_be k n).

  (** src/svc_table/mod.rs:54-62, `StableHasher::write`, under the default methods of `Hasher` *)
  Definition hcall_bytes (c : hcall) : bytes :=
    match c with
    | HBytes b => b
    | HU8 n => ne_bytes 1 n
    | HU16 n => ne_bytes 2 n
    | HU32 n => ne_bytes 4 n
    | HSize n => ne_bytes width n
    end.
End Machine.

(** src/svc_table/service.rs:30-53: the discriminants of `ServiceType` (`repr(u32)`, none is given, so they
    count from zero) *)
Definition svc_discr (t : svc_type) : N :=
  match t with
  | ControlProtocol => 0
  | RTSP => 1
  | LockedRTSP => 2
  | UnknownRTSP => 3
  | UnsupportedRTSP => 4
  | HTTP => 5
  | MJPEG => 6
  | LockedMJPEG => 7
  | TCP => 8
  end.

(** src/svc_table/service.rs:32, the derived `Hash`: the discriminant as an u32 *)
Definition hash_type (t : svc_type) : list hcall := [HU32 (svc_discr t)].

(** src/svc_table/service.rs:260-277, `Hash for StableHashOption` *)
Definition hash_option {A : Type} (h : A -> list hcall) (o : option A) : list hcall :=
  match o with
  | Some v => HU32 1 :: h v
  | None => [HU32 0]
  end.

(** src/net/raw/ether/mod.rs:89-103, `Hash for MacAddr` *)
Definition hash_mac (m : N) : list hcall := [HU32 6; HBytes (to_be 6 m)].

(** `Hash for u16` *)
Definition hash_port (p : N) : list hcall := [HU16 p].

(** src/svc_table/service.rs:307-315, `Hash for StableHashString` *)
Definition hash_string (s : bytes) : list hcall := [HBytes s; HU8 255].

(** src/svc_table/service.rs:72-79, the derived `Hash` of `ServiceIdentifier`: the fields in order *)
Definition hash_ident (k : ident) : list hcall :=
  hash_type (i_type k) ++ hash_option hash_mac (i_mac k) ++ hash_option hash_port (i_port k)
    ++ hash_option hash_string (i_path k).

(** What the hasher collects, src/svc_table/mod.rs:64-70 *)
Definition hash_input (width : nat) (big : bool) (k : ident) : bytes :=
  flat_map (hcall_bytes width big) (hash_ident k).

(** src/svc_table/mod.rs:39-70, `stable_hash`; [fp] is `farmhash::fingerprint64` *)
Definition stable_hash (fp : bytes -> N) (width : nat) (big : bool) (k : ident) : N := fp (hash_input width big k).
