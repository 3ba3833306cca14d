(** Reading the history of a client of the C interface. *)
From Coq Require Import NArith ZArith List Bool.
From Verif.Model Require Import Client Background Runtime.
Import ListNotations.
Local Open Scope N_scope.

(** The application has closed or freed the client. *)
Definition told_to_stop (es : list rev) : Prop := In (RBg EvClose) es \/ In RFree es.

(** A call of the application's scanner state callback. *)
Definition is_callback (x : bobs) : bool := match x with OScanning _ => true | _ => false end.
