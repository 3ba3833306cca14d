(** How much data a connection holds. *)
From Coq Require Import NArith ZArith List Bool.
From Verif.Model Require Import Bytes Frame Session Manager Client Wire.
From Verif.Spec Require Import FrameSpec.
Import ListNotations.
Local Open Scope N_scope.

(** No read of the TLS stream returned more than [R] bytes. *)
Definition reads_at_most (R : N) (es : list wev) : Prop := forall b, In (WArrive (SData b)) es -> nlen b <= R.

(** No read of a service's socket returned more than [C] bytes. *)
Definition services_at_most (C : N) (h : list cobs) : Prop :=
  forall sid b w o, In (XMgr (OSess sid (ETransport (RdData b) w) o)) h -> nlen b <= C.

(** The bytes are the beginning of a sequence of frames with payloads of at most [M] bytes. *)
Definition frames_at_most (M : N) (b : bytes) : Prop :=
  exists ms rest, b ++ rest = concat (map frame_layout ms) /\ Forall (fun m => wf_amsg m /\ nlen (m_payload m) <= M) ms.
