(** Property C156: what the log says about the CA certificates. *)
From Coq Require Import String NArith List Bool.
From Verif.Model Require Import Bytes Text Storage Logger Journal CaLog.
From Verif.Spec Require Import StorageSpec CaLogSpec.
From Verif.Proofs Require Import StoragePf CaLogPf.
From Verif.Props Require Import StorageProps.
Import ListNotations.
Local Open Scope N_scope.

(** C156, refuted: a given path can be of no use without a warning. It may have no certificate's name (so that its certificates are not
    trusted), or nothing may be there. *)
Theorem C156_silent_refuted :
  exists (file cert : Type) (pem : file -> list cert * bool) (bundle missing : given file) (c : cert) (name : bytes) (f : file),
    below (v_node bundle) name f /\ In c (fst (pem f)) /\ snd (pem f) = true /\
    (exists name' f', v_node missing = NFile name' f' /\ pem f' = ([], false)) /\
    ca_log pem [bundle; missing] = [] /\ load_cas pem (map v_node [bundle; missing]) = [].
Proof.
  exists N, N, pem0, {| v_shown := txt "/etc/ca-bundle.txt"; v_node := NFile (txt "ca-bundle.txt") 1; v_err := [] |},
    {| v_shown := txt "/etc/ssl/crets"; v_node := NFile (txt "crets") 0; v_err := [] |}, 1, (txt "ca-bundle.txt"), 1.
  split; [constructor|]. split; [left; reflexivity|]. split; [reflexivity|]. split; [exists (txt "crets"), 0; split; reflexivity|].
  split; vm_compute; reflexivity.
Qed.
Print Assumptions C156_silent_refuted.

(** The same for every path to a file (or to nothing) without one of the four extensions: no warning, and nothing is trusted. *)
Theorem C156_ignored : forall (file cert : Type) (pem : file -> list cert * bool) (name shown err : bytes) (f : file),
  ~ named name ->
  ca_log pem [{| v_shown := shown; v_node := NFile name f; v_err := err |}] = [] /\ load_cas pem [NFile name f] = [].
Proof. intros file cert pem name shown err f. exact (not_named_silent pem name f shown err). Qed.
Print Assumptions C156_ignored.

(** What holds: there is one warning for each path below which something goes wrong, in the order of the paths, and no other. *)
Theorem C156_warnings_partial : forall (file cert : Type) (pem : file -> list cert * bool) (l : list (given file)), ca_told pem l (ca_log pem l).
Proof. intros. apply told. Qed.
Print Assumptions C156_warnings_partial.

(** Without a warning all certificates in the certificate files below the paths are trusted. *)
Theorem C156_trusted_partial : forall (file cert : Type) (pem : file -> list cert * bool) (l : list (given file)) (g : given file) (name : bytes) (f : file) (c : cert),
  ca_log pem l = [] -> In g l -> below (v_node g) name f -> named name -> In c (fst (pem f)) -> In c (load_cas pem (map v_node l)).
Proof. intros file cert pem l g name f c H. apply (quiet_trusted pem l H). Qed.
Print Assumptions C156_trusted_partial.

Example C156_case :
  let good := {| v_shown := txt "/etc/ssl"; v_node := NDir [NFile (txt "a.PEM") 1; NFile (txt "read.me") 2]; v_err := [] |} in
  let bad := {| v_shown := txt "/etc/my"; v_node := NDir [NFile (txt "b.crt") 3; NFile (txt "c.der") 0; NFile (txt "d.crt") 4]; v_err := txt "no start line" |} in
  map j_text (ca_log pem0 [good; bad]) = [txt "unable to open certificate file/dir ""/etc/my"" (no start line)"] /\
  load_cas pem0 (map v_node [good; bad]) = [1; 3] /\ ca_log pem0 [good] = [] /\ is_cert_file (txt "ca-bundle.txt") = false.
Proof. vm_compute. repeat split. Qed.
