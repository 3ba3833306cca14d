(** A connection whose sink is full. *)
From Coq Require Import NArith ZArith List Bool.
From Verif.Model Require Import Bytes Frame Service Control Session Manager Client Wire.
From Verif.Spec Require Import FrameSpec.
Import ListNotations.
Local Open Scope N_scope.

(** The number of bytes that the TLS stream is willing to take in the events [es]. *)
Definition taken (es : list wev) : nat := fold_right (fun e n => match e with WFlush k => (k + n)%nat | _ => n end) 0%nat es.

(** The reads of the TLS stream in [es], in order. *)
Definition reads_in (es : list wev) : list sread := flat_map (fun e => match e with WArrive r => [r] | _ => [] end) es.

(** [b] ends with the frame of [m]. *)
Definition written_last (m : amsg) (b : bytes) : Prop := exists before, b = before ++ frame_layout m.
