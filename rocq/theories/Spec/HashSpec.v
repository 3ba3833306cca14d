(** Statement-level definitions about the hash of service identifiers. *)
From Coq Require Import NArith List Bool.
From Verif.Model Require Import Bytes Service Utf8.
Import ListNotations.
Local Open Scope N_scope.

(** The values of a `ServiceIdentifier`: a MAC address has 6 bytes, a port 2 and a path is a string. *)
Definition ident_ok (k : ident) : Prop :=
  (forall m, i_mac k = Some m -> m < 2 ^ 48) /\
  (forall p, i_port k = Some p -> p < 2 ^ 16) /\
  (forall s, i_path k = Some s -> utf8_valid s = true).

Definition prefix (a b : bytes) : Prop := exists c, b = a ++ c.

(** The numbers of the service types, by position. *)
Definition type_order : list svc_type :=
  [ControlProtocol; RTSP; LockedRTSP; UnknownRTSP; UnsupportedRTSP; HTTP; MJPEG; LockedMJPEG; TCP].

(** The text of an identity on a little-endian machine: the type, then MAC address (with its length), port and
    path (ended by the byte 255), each after a flag that says whether it is there. *)
Definition optional_text {A : Type} (f : A -> bytes) (o : option A) : bytes :=
  match o with Some v => [1; 0; 0; 0] ++ f v | None => [0; 0; 0; 0] end.
Definition identity_text (number : N) (k : ident) : bytes :=
  [number; 0; 0; 0] ++
  optional_text (fun m => [6; 0; 0; 0] ++ map (fun i => m / 256 ^ i mod 256) [5; 4; 3; 2; 1; 0]) (i_mac k) ++
  optional_text (fun p => [p mod 256; p / 256]) (i_port k) ++
  optional_text (fun s => s ++ [255]) (i_path k).
