(** Property C155: what the log says about saving the configuration.

    [save_log hash path s e err]: the records of the event [e] in the world [s] (files and running client, Model/Config.v); [err] is the
    text of the error if the file cannot be written. *)
From Coq Require Import String NArith ZArith List Bool.
From Verif.Model Require Import Bytes Service SvcTable TableJson Config Logger Journal SaveLog.
From Verif.Spec Require Import ConfigSpec SaveLogSpec.
From Verif.Proofs Require Import TableCases ConfigCases SaveLogPf.
Import ListNotations.
Local Open Scope N_scope.
Local Open Scope list_scope.

(** C155: a scan or a reset leaves the version and the file as they are and writes nothing to the log, or it increases the version and then
    either the file has the new version and the current table, or the log has the warning and nothing else. *)
Theorem C155_told :
  forall (hash : ident -> N) (aprint : saddr -> bytes) (aparse : bytes -> option saddr) (uprint : N -> bytes) (uparse : bytes -> option N)
         (path err : bytes) (sk flash : bool) (s : world) (e : wevent) (c c' : config),
    runs_on e -> w_app s = Some c ->
    let s' := fst (world_step hash aprint aparse uprint uparse sk flash s e) in
    let l := save_log hash path s e err in
    w_app s' = Some c' ->
    g_uuid c' = g_uuid c /\ g_passwd c' = g_passwd c /\
    ((g_version c' = g_version c /\ w_config s' = w_config s /\ l = []) \/
     (g_version c' = g_version c + 1 /\
      match fate_of e with
      | Wrote => l = [] /\ exists t, current c' = Some t /\
          w_config s' = Some (pconfig_to_json aprint uprint {| p_uuid := g_uuid c'; p_passwd := g_passwd c'; p_version := g_version c'; p_table := t |})
      | Kept => l = [unsaved path err] /\ w_config s' = w_config s
      | Torn => l = [unsaved path err] /\ w_config s' = None
      end)).
Proof. intros until c'. intros R A s' l A'. exact (step_told hash aprint aparse uprint uparse path sk flash s e err c R A c' A'). Qed.
Print Assumptions C155_told.

(** As long as there is no such warning, the file has the version and the identity of the running client. *)
Theorem C155_quiet :
  forall (hash : ident -> N) (aprint : saddr -> bytes) (aparse : bytes -> option saddr) (uprint : N -> bytes) (uparse : bytes -> option N)
         (path : bytes) (sk flash : bool) (es : list (wevent * bytes)) (s : world) (c c' : config),
    Forall (fun p => runs_on (fst p)) es -> w_app s = Some c -> up_to_date aprint uprint c (w_config s) ->
    saves_log hash aprint aparse uprint uparse path sk flash s es = [] ->
    let s' := fst (world_run hash aprint aparse uprint uparse sk flash s (map fst es)) in
    w_app s' = Some c' -> up_to_date aprint uprint c' (w_config s').
Proof. intros until c'. intros R A U L s' A'. exact (quiet_current hash aprint aparse uprint uparse path sk flash es s c R A U L c' A'). Qed.
Print Assumptions C155_quiet.

(** A client that has started has written its configuration. *)
Theorem C155_started :
  forall (hash : ident -> N) (aprint : saddr -> bytes) (aparse : bytes -> option saddr) (uprint : N -> bytes) (uparse : bytes -> option N)
         (sk flash : bool) (s : world) (fresh : N * N) (now : Z) (wsk : wres) (stop : bool) (services : list (Z * service)) (w : wres) (c : config),
    w_app s = None ->
    let s' := fst (world_step hash aprint aparse uprint uparse sk flash s (WStart fresh now wsk stop services w)) in
    w_app s' = Some c -> up_to_date aprint uprint c (w_config s').
Proof. intros until c. intros A s' A'. exact (started_current hash aprint aparse uprint uparse sk flash s fresh now wsk stop services w c A A'). Qed.
Print Assumptions C155_started.

(** A start, a scan that finds a camera and cannot save it, a scan that finds nothing new, a reset that is saved *)
Definition ex_saved : world := fst (world_step hash0 enc dec one unone true false blank (WStart (1, 2) 0 Wrote false [] Wrote)).
Example C155_case :
  (exists c, w_app ex_saved = Some c) /\
  map j_text (saves_log hash0 enc dec one unone (lit "config"%string) true false ex_saved
    [(WScan [(5%Z, cam)] 6 Kept, lit "disk full"%string); (WScan [(5%Z, cam)] 7 Kept, lit "disk full"%string); (WReset Wrote, [])]) =
  [lit "unable to save client configuration: unable to create configuration file ""config"": disk full"%string] /\
  saves_log hash0 enc dec one unone (lit "config"%string) true false ex_saved
    [(WScan [(5%Z, cam)] 6 Wrote, []); (WScan [(5%Z, cam)] 7 Kept, lit "disk full"%string); (WReset Wrote, [])] = [].
Proof. split; [eexists; vm_compute; reflexivity|]. split; vm_compute; reflexivity. Qed.
