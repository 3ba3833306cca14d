(** What the client writes to the log when it loads the CA certificates. *)
From Coq Require Import String NArith List Bool.
From Verif.Model Require Import Bytes Storage Logger Journal.
Import ListNotations.
Local Open Scope N_scope.

(** src/storage.rs:360-365 *)
Definition ca_rec (shown err : bytes) : jrec :=
  say WARN [lit "unable to open certificate file/dir """%string; shown; lit """ ("%string; err; lit ")"%string].
(** A given path as it is shown, what is there, and the text of the first error, if there is one. A path where nothing is, is a file
    that cannot be read: `is_dir` is false for it, and `set_ca_file` fails. *)
Record given (file : Type) := { v_shown : bytes; v_node : node file; v_err : bytes }.
Arguments v_shown {file}.
Arguments v_node {file}.
Arguments v_err {file}.
(** src/storage.rs:354-370 *)
Fixpoint ca_log {file cert : Type} (pem : file -> list cert * bool) (l : list (given file)) : list jrec :=
  match l with
  | [] => []
  | g :: l' => (if snd (load_ca pem (v_node g)) then [] else [ca_rec (v_shown g) (v_err g)]) ++ ca_log pem l'
  end.
