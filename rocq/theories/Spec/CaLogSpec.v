(** What the log says about the CA certificates. *)
From Coq Require Import String NArith List Bool.
From Verif.Model Require Import Bytes Storage Logger Journal CaLog.
From Verif.Spec Require Import StorageSpec.
Import ListNotations.
Local Open Scope N_scope.

Definition no_certs {file} (g : given file) : jrec :=
  {| j_sev := WARN; j_text := lit "unable to open certificate file/dir """%string ++ v_shown g ++ lit """ ("%string ++ v_err g ++ lit ")"%string |}.
(** The warnings, path by path *)
Inductive ca_told {file cert} (pem : file -> list cert * bool) : list (given file) -> list jrec -> Prop :=
| told_none : ca_told pem [] []
| told_fine : forall g l r, fine pem (v_node g) -> ca_told pem l r -> ca_told pem (g :: l) r
| told_bad : forall g l r, ~ fine pem (v_node g) -> ca_told pem l r -> ca_told pem (g :: l) (no_certs g :: r).
