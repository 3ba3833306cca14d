(** What the log says about a start. *)
From Coq Require Import String NArith ZArith List Bool.
From Verif.Model Require Import Bytes Service SvcTable Config JsonText Start Logger Journal StartLog.
Import ListNotations.
Local Open Scope N_scope.
Local Open Scope list_scope.

(** A warning about a file *)
Definition trouble (what file err : bytes) : jrec :=
  {| j_sev := WARN; j_text := lit "unable to "%string ++ what ++ lit " """%string ++ file ++ lit """ ("%string ++ err ++ lit ")"%string |}.
Definition unread_config (ph : paths) (tx : texts) : jrec := trouble (lit "read configuration file"%string) (ph_config ph) (tx_config tx).
Definition unread_skeleton (ph : paths) (tx : texts) : jrec := trouble (lit "read configuration file skeleton"%string) (ph_skel ph) (tx_skel tx).
Definition uncreated_skeleton (ph : paths) (tx : texts) : jrec := trouble (lit "create configuration file skeleton"%string) (ph_skel ph) (tx_create tx).
Definition uncreated_identity (q : bytes) (tx : texts) : jrec := trouble (lit "create identity file"%string) q (tx_ident tx).
Definition new_skeleton (ph : paths) : jrec :=
  {| j_sev := INFO; j_text := lit "creating configuration file skeleton """%string ++ ph_skel ph ++ lit """"%string |}.
Definition is_started (uprint : N -> bytes) (uuid : N) (mac : bytes) : jrec :=
  {| j_sev := INFO; j_text := lit "Arrow Client started (uuid: "%string ++ uprint uuid ++ lit ", mac: "%string ++ mac ++ lit ")"%string |}.

(** The same configuration but for the password *)
Definition same_but_password (a b : result pconfig) : Prop :=
  match a, b with
  | ROk p, ROk q => p_uuid p = p_uuid q /\ p_version p = p_version q /\ p_table p = p_table q
  | RErr, RErr | RPanic, RPanic => True
  | _, _ => False
  end.
(** The same circumstances with another new password *)
Definition with_password (lk : luck) (x : N) : luck :=
  {| lk_create := lk_create lk; lk_lock := lk_lock lk; lk_log := lk_log lk; lk_skel := lk_skel lk; lk_ident := lk_ident lk; lk_mac := lk_mac lk;
     lk_save := lk_save lk; lk_fresh := (fst (lk_fresh lk), x); lk_now := lk_now lk |}.
(** The files that a start may change *)
Definition own_files (ph : paths) : list bytes :=
  ph_config ph :: ph_skel ph :: (match ph_identity ph with Some q => [q] | None => [] end) ++
  (match ph_lock ph with Some q => [q] | None => [] end) ++ match ph_log ph with Some q => [q] | None => [] end.
(** A warning about a path file *)
Definition no_paths (what err : bytes) : jrec :=
  {| j_sev := WARN; j_text := lit "unable to load "%string ++ what ++ lit " paths ("%string ++ err ++ lit ")"%string |}.
(** The lock and the log file are had, if they are wanted. *)
Definition gets_lock (ph : paths) (lk : luck) : bool := match ph_lock ph with Some _ => lk_create lk && lk_lock lk | None => true end.
Definition gets_log (ph : paths) (lk : luck) : bool := match ph_log ph with Some _ => lk_log lk | None => true end.
