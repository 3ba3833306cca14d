(** Properties C102 and C103: the start of the client and its files. *)
From Coq Require Import String NArith ZArith List Bool.
From Verif.Model Require Import Bytes Service SvcTable TableJson Config JsonText Start.
From Verif.Spec Require Import JsonSpec StartSpec.
From Verif.Proofs Require Import TableCases ConfigCases StartPf StartCases.
Import ListNotations.
Local Open Scope N_scope.
Local Open Scope list_scope.

(** C102: with a lock file, no other file is touched before the lock is held, and a client that does not get the lock
    ends. *)
Theorem C102_lock_first :
  forall (hash : ident -> N) (aprint : saddr -> bytes) (aparse : bytes -> option saddr) (uprint : N -> bytes) (uparse : bytes -> option N)
         (jparse : bytes -> option json) (ph : paths) (lk : luck) (services : list (Z * service)) (flash : bool) (f : fs) (p : bytes),
    ph_lock ph = Some p ->
    let s := start hash aprint aparse uprint uparse jparse ph lk services flash f in
    (fst s = [] /\ snd s = RErr) \/ (fst s = [OCreate p] /\ snd s = RErr) \/ (exists l, fst s = OCreate p :: OLock p :: l).
Proof. intros. now apply lock_first. Qed.
Print Assumptions C102_lock_first.

(** Files other than the configuration, its skeleton, the identity file, the lock and the log are never changed. *)
Theorem C102_changes :
  forall (hash : ident -> N) (aprint : saddr -> bytes) (aparse : bytes -> option saddr) (uprint : N -> bytes) (uparse : bytes -> option N)
         (jparse : bytes -> option json) (ph : paths) (lk : luck) (services : list (Z * service)) (flash : bool) (f : fs) (q : bytes),
    In q (flat_map changes (fst (start hash aprint aparse uprint uparse jparse ph lk services flash f))) ->
    In q (ph_config ph :: ph_skel ph :: opt_list (ph_identity ph) ++ opt_list (ph_lock ph) ++ opt_list (ph_log ph)).
Proof. exact start_changes. Qed.
Print Assumptions C102_changes.

(** The content of every other file stays, that of the log file included, also if the start is interrupted. *)
Theorem C102_kept :
  forall (hash : ident -> N) (aprint : saddr -> bytes) (aparse : bytes -> option saddr) (uprint : N -> bytes) (uparse : bytes -> option N)
         (jparse : bytes -> option json) (ph : paths) (lk : luck) (services : list (Z * service)) (flash : bool) (f : fs) (q c : bytes) (n : nat),
    f q = Some c -> ~ In q (ph_config ph :: ph_skel ph :: opt_list (ph_identity ph) ++ opt_list (ph_lock ph)) ->
    apply_ops f (firstn n (fst (start hash aprint aparse uprint uparse jparse ph lk services flash f))) q = Some c.
Proof. exact files_kept. Qed.
Print Assumptions C102_kept.
Example C102_kept_case :
  let ph := {| ph_lock := Some (lit "lock"); ph_log := Some (lit "log"); ph_config := lit "config"; ph_skel := lit "skel"; ph_identity := None;
               ph_rtsp := lit "rtsp"; ph_mjpeg := lit "mjpeg" |} in
  let lk := {| lk_create := true; lk_lock := true; lk_log := true; lk_skel := FAll; lk_ident := FAll; lk_mac := true; lk_save := FAll;
               lk_fresh := (1, 2); lk_now := 0 |} in
  let f := put no_files (lit "log") (lit "old") in
  In (OAppend (lit "log")) (fst (ex_start ph lk [] false f)) /\ apply_ops f (fst (ex_start ph lk [] false f)) (lit "log") = Some (lit "old").
Proof. vm_compute. split; [tauto|reflexivity]. Qed.

Example C102_case :
  ph_lock ex_paths = Some (lit "lock") /\
  fst (ex_start ex_paths ex_luck [] false no_files) =
  [OCreate (lit "lock"); OLock (lit "lock"); ORead (lit "skel"); ORead (lit "config");
   OWrite (lit "skel") (jdump (pconfig_to_json enc one (to_skeleton 0 p0))); OWrite (lit "id") (jdump (identity_doc one 1));
   ORead (lit "rtsp"); ORead (lit "mjpeg"); OWrite (lit "config") (jdump (pconfig_to_json enc one p0))].
Proof. vm_compute. split; reflexivity. Qed.

(** C103: a client that has started has saved the configuration it runs with, and the identity file (if it could be
    written and is not the configuration file) has its UUID. *)
Theorem C103_saved :
  forall (hash : ident -> N) (aprint : saddr -> bytes) (aparse : bytes -> option saddr) (uprint : N -> bytes) (uparse : bytes -> option N)
         (jparse : bytes -> option json) (ph : paths) (lk : luck) (services : list (Z * service)) (flash : bool) (f : fs) (c : config),
    let s := start hash aprint aparse uprint uparse jparse ph lk services flash f in
    snd s = ROk c ->
    exists t, g_heap c = [t] /\ g_cur c = O /\
      apply_ops f (fst s) (ph_config ph) = Some (jdump (pconfig_to_json aprint uprint (to_persistent c t))).
Proof. intros until c. apply started_saved. Qed.
Print Assumptions C103_saved.

Theorem C103_identity_partial :
  forall (hash : ident -> N) (aprint : saddr -> bytes) (aparse : bytes -> option saddr) (uprint : N -> bytes) (uparse : bytes -> option N)
         (jparse : bytes -> option json) (ph : paths) (lk : luck) (services : list (Z * service)) (flash : bool) (f : fs) (c : config) (q : bytes),
    let s := start hash aprint aparse uprint uparse jparse ph lk services flash f in
    snd s = ROk c -> ph_identity ph = Some q -> q <> ph_config ph -> lk_ident lk = FAll ->
    apply_ops f (fst s) q = Some (jdump (identity_doc uprint (g_uuid c))).
Proof. intros until q. apply started_identity. Qed.
Print Assumptions C103_identity_partial.

(** A readable skeleton is left as it is; one that cannot be read is replaced by the identity of the client, with version 0
    and without services. *)
Theorem C103_skeleton :
  forall (hash : ident -> N) (aprint : saddr -> bytes) (aparse : bytes -> option saddr) (uprint : N -> bytes) (uparse : bytes -> option N)
         (jparse : bytes -> option json) (ph : paths) (lk : luck) (services : list (Z * service)) (flash : bool) (f : fs) (c : config),
    let s := start hash aprint aparse uprint uparse jparse ph lk services flash f in
    distinct_paths ph -> snd s = ROk c ->
    match read_config aparse uparse jparse (lk_now lk) (f (ph_skel ph)) with
    | ROk _ => apply_ops f (fst s) (ph_skel ph) = f (ph_skel ph)
    | RErr => lk_skel lk = FAll -> apply_ops f (fst s) (ph_skel ph) = Some (jdump (skeleton_doc uprint (g_uuid c) (g_passwd c)))
    | RPanic => False
    end.
Proof. intros until c. apply started_skeleton. Qed.
Print Assumptions C103_skeleton.

(** An identity file may name an identity that no client ever has. *)
Theorem C103_stale_refuted :
  exists (hash : ident -> N) (aprint : saddr -> bytes) (aparse : bytes -> option saddr) (uprint : N -> bytes) (uparse : bytes -> option N)
         (ph : paths) (lk1 lk2 : luck) (q : bytes) (u : N) (c : config),
    (forall u, uparse (uprint u) = Some u) /\ (forall x, aparse (aprint x) = Some x) /\ distinct_paths ph /\ ph_identity ph = Some q /\
    let s := start hash aprint aparse uprint uparse jread in
    let f1 := apply_ops no_files (fst (s ph lk1 [] false no_files)) in
    snd (s ph lk2 [] false f1) = ROk c /\
    apply_ops f1 (fst (s ph lk2 [] false f1)) q = Some (jdump (identity_doc uprint u)) /\ g_uuid c <> u.
Proof. exact stale_identity. Qed.
Print Assumptions C103_stale_refuted.

(** The start on files of bytes, cut anywhere, is the start of [Config.v] on documents (C39), for every parser that reads
    the documents of the client and no unfinished ones. *)
Theorem C103_documents :
  forall (hash : ident -> N) (aprint : saddr -> bytes) (aparse : bytes -> option saddr) (uprint : N -> bytes) (uparse : bytes -> option N)
         (jparse : bytes -> option json), reads_documents aprint uprint jparse ->
  forall (ph : paths) (lk : luck) (services : list (Z * service)) (flash : bool) (f : fs),
    distinct_paths ph -> lk_mac lk = true -> snd (take_lock ph lk) = true -> snd (open_log ph lk) = true ->
    let s := start hash aprint aparse uprint uparse jparse ph lk services flash f in
    world_step hash aprint aparse uprint uparse true flash (seen_files jparse ph f None)
      (WStart (lk_fresh lk) (lk_now lk) (seen_fate (lk_skel lk)) false services (seen_fate (lk_save lk))) =
    (seen_files jparse ph (apply_ops f (fst s)) (match snd s with ROk c => Some c | _ => None end),
     match snd s with ROk c => Some (g_uuid c, g_passwd c) | _ => None end).
Proof. intros. now apply start_seen. Qed.
Print Assumptions C103_documents.

Theorem C103_parser : forall (aprint : saddr -> bytes) (uprint : N -> bytes), reads_documents aprint uprint jread.
Proof. exact jread_reads. Qed.
Print Assumptions C103_parser.

Example C103_case :
  match ex_start ex_paths ex_luck [] false no_files with (_, ROk c) => g_uuid c = 1 | _ => False end /\
  ph_identity ex_paths = Some (lit "id") /\ lit "id" <> ph_config ex_paths /\ lk_ident ex_luck = FAll /\ distinct_paths ex_paths /\
  lk_mac ex_luck = true /\ snd (take_lock ex_paths ex_luck) = true /\ snd (open_log ex_paths ex_luck) = true.
Proof.
  split; [vm_compute; reflexivity|]. split; [reflexivity|]. split; [discriminate|]. split; [reflexivity|]. split; [|auto].
  unfold distinct_paths. repeat (constructor; [vm_compute; intuition discriminate|]). constructor.
Qed.
