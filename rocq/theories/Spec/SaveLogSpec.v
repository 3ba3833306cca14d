(** What the log says about saving the configuration. *)
From Coq Require Import String NArith ZArith List Bool.
From Verif.Model Require Import Bytes Service SvcTable TableJson Config Logger Journal.
From Verif.Spec Require Import ConfigSpec.
Import ListNotations.
Local Open Scope N_scope.
Local Open Scope list_scope.

Definition unsaved (path err : bytes) : jrec :=
  {| j_sev := WARN;
     j_text := lit "unable to save client configuration: unable to create configuration file """%string ++ path ++ lit """: "%string ++ err |}.
(** The file has a configuration of the version of the client, with its identity. *)
Definition up_to_date (aprint : saddr -> bytes) (uprint : N -> bytes) (c : config) (f : file) : Prop :=
  exists t, f = Some (pconfig_to_json aprint uprint
    {| p_uuid := g_uuid c; p_passwd := g_passwd c; p_version := g_version c; p_table := t |}).
(** Scans and resets *)
Definition runs_on (e : wevent) : Prop := match e with WScan _ _ _ | WReset _ => True | _ => False end.
Definition fate_of (e : wevent) : wres := match e with WScan _ _ w | WReset w => w | _ => Wrote end.
