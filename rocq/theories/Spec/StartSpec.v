(** What the start of the client promises. *)
From Coq Require Import String NArith ZArith List Bool.
From Verif.Model Require Import Bytes Service SvcTable TableJson Config JsonText Start.
Import ListNotations.
Local Open Scope list_scope.

(** A parser that reads the documents of the client and no unfinished ones *)
Definition reads_documents (aprint : saddr -> bytes) (uprint : N -> bytes) (jparse : bytes -> option json) : Prop :=
  (forall p, jparse (jdump (pconfig_to_json aprint uprint p)) = Some (pconfig_to_json aprint uprint p)) /\
  (forall p a x, jdump (pconfig_to_json aprint uprint p) = a ++ x -> x <> [] -> jparse a = None).

(** The files that an operation changes *)
Definition changes (o : fop) : list bytes :=
  match o with OCreate p | OAppend p | OWrite p _ => [p] | OLock _ | ORead _ => [] end.
(** The files whose content an operation replaces *)
Definition replaces (o : fop) : list bytes :=
  match o with OCreate p | OWrite p _ => [p] | OAppend _ | OLock _ | ORead _ => [] end.
Definition opt_list (o : option bytes) : list bytes := match o with Some p => [p] | None => [] end.

(** The two configuration files as [Config.v] sees them *)
Definition seen_files (jparse : bytes -> option json) (ph : paths) (f : fs) (c : option config) : world :=
  {| w_config := bind (f (ph_config ph)) jparse; w_skel := bind (f (ph_skel ph)) jparse; w_app := c |}.
Definition seen_fate (x : fate) : wres := match x with FAll => Wrote | FNone => Kept | FSome _ => Torn end.
(** A configuration that has nothing but an identity *)
Definition skeleton_doc (uprint : N -> bytes) (uuid passwd : N) : json :=
  JObj [ (lit "uuid"%string, JStr (uprint uuid)); (lit "passwd"%string, JStr (uprint passwd)); (lit "version"%string, JNum 0);
         (lit "svc_table"%string, JObj [ (lit "services"%string, JArr []) ]) ].
(** Different files for different purposes *)
Definition distinct_paths (ph : paths) : Prop :=
  NoDup (ph_config ph :: ph_skel ph :: opt_list (ph_identity ph) ++ opt_list (ph_lock ph) ++ opt_list (ph_log ph)).
