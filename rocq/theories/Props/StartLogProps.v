(** Property C154: what the log says about a start.

    [start_log ... ph lk tx mac services flash f]: the records of a start with the files [f]; [lk] is what the world decides, [tx] are the
    texts of the errors. *)
From Coq Require Import String NArith ZArith List Bool.
From Verif.Model Require Import Bytes Service SvcTable TableJson Config JsonText Mac Storage Start Logger Journal StartLog.
From Verif.Spec Require Import JsonSpec StartSpec StartLogSpec.
From Verif.Proofs Require Import TableCases ConfigCases StartCases StartLogPf.
Import ListNotations.
Local Open Scope N_scope.
Local Open Scope list_scope.

(** C154: the identity of a started client is the one of its configuration file, or the log has a warning about this file and it is the
    one of the skeleton, or there are warnings about both files and it is a new one. *)
Theorem C154_identity :
  forall (hash : ident -> N) (aprint : saddr -> bytes) (aparse : bytes -> option saddr) (uprint : N -> bytes) (uparse : bytes -> option N)
         (jparse : bytes -> option json) (ph : paths) (lk : luck) (tx : texts) (mac : N) (services : list (Z * service)) (flash : bool) (f : fs) (c : config),
    distinct_paths ph -> ~ In (ph_rtsp ph) (own_files ph) -> ~ In (ph_mjpeg ph) (own_files ph) ->
    snd (start hash aprint aparse uprint uparse jparse ph lk services flash f) = ROk c ->
    let l := start_log hash aprint aparse uprint uparse jparse ph lk tx mac services flash f in
    match read_config aparse uparse jparse (lk_now lk) (f (ph_config ph)), read_config aparse uparse jparse (lk_now lk) (f (ph_skel ph)) with
    | ROk p, _ => g_uuid c = p_uuid p /\ g_passwd c = p_passwd p
    | RErr, ROk p => g_uuid c = p_uuid p /\ g_passwd c = p_passwd p /\ In (unread_config ph tx) l
    | RErr, RErr => (g_uuid c, g_passwd c) = lk_fresh lk /\ In (unread_config ph tx) l /\ In (unread_skeleton ph tx) l /\ In (new_skeleton ph) l
    | _, _ => False
    end.
Proof. intros until c. apply identity_told. Qed.
Print Assumptions C154_identity.

(** All the records of a start that succeeds: a warning for each file that could not be read or written, a notice about a new skeleton,
    and at last the UUID and the MAC address of the client. *)
Theorem C154_records :
  forall (hash : ident -> N) (aprint : saddr -> bytes) (aparse : bytes -> option saddr) (uprint : N -> bytes) (uparse : bytes -> option N)
         (jparse : bytes -> option json) (ph : paths) (lk : luck) (tx : texts) (mac : N) (services : list (Z * service)) (flash : bool) (f : fs) (c : config),
    distinct_paths ph -> ~ In (ph_rtsp ph) (own_files ph) -> ~ In (ph_mjpeg ph) (own_files ph) ->
    snd (start hash aprint aparse uprint uparse jparse ph lk services flash f) = ROk c ->
    let s := read_config aparse uparse jparse (lk_now lk) (f (ph_skel ph)) in
    let r := read_config aparse uparse jparse (lk_now lk) (f (ph_config ph)) in
    start_log hash aprint aparse uprint uparse jparse ph lk tx mac services flash f =
      match s with ROk _ => [] | _ => [unread_skeleton ph tx] end ++
      match r with ROk _ => [] | _ => [unread_config ph tx] end ++
      match s with ROk _ => [] | _ => new_skeleton ph :: match lk_skel lk with FAll => [] | _ => [uncreated_skeleton ph tx] end end ++
      match ph_identity ph with Some q => match lk_ident lk with FAll => [] | _ => [uncreated_identity q tx] end | None => [] end ++
      match load_paths_file (f (ph_rtsp ph)) with Some _ => [] | None => [no_paths (lit "RTSP"%string) (tx_rtsp tx)] end ++
      match load_paths_file (f (ph_mjpeg ph)) with Some _ => [] | None => [no_paths (lit "MJPEG"%string) (tx_mjpeg tx)] end ++
      [is_started uprint (g_uuid c) (mac_print mac)].
Proof.
  intros hash aprint aparse uprint uparse jparse ph lk tx mac services flash f c DP R1 R2 S. cbv zeta.
  destruct (records hash aprint aparse uprint uparse jparse ph lk tx mac services flash f c DP R1 R2 S) as (-> & _).
  unfold load_records. rewrite <- !app_assoc. reflexivity.
Qed.
Print Assumptions C154_records.

(** The records of a start that fails: none without the lock or the log, and else the same warnings as far as it got. *)
Theorem C154_failed :
  forall (hash : ident -> N) (aprint : saddr -> bytes) (aparse : bytes -> option saddr) (uprint : N -> bytes) (uparse : bytes -> option N)
         (jparse : bytes -> option json) (ph : paths) (lk : luck) (tx : texts) (mac : N) (services : list (Z * service)) (flash : bool) (f : fs),
    distinct_paths ph -> ~ In (ph_rtsp ph) (own_files ph) -> ~ In (ph_mjpeg ph) (own_files ph) ->
    (forall c, snd (start hash aprint aparse uprint uparse jparse ph lk services flash f) <> ROk c) ->
    let s := read_config aparse uparse jparse (lk_now lk) (f (ph_skel ph)) in
    let r := read_config aparse uparse jparse (lk_now lk) (f (ph_config ph)) in
    start_log hash aprint aparse uprint uparse jparse ph lk tx mac services flash f =
      if gets_lock ph lk && gets_log ph lk then
        match s, r with
        | RPanic, _ => []
        | ROk _, RPanic => []
        | RErr, RPanic => [unread_skeleton ph tx]
        | _, _ =>
          match s with ROk _ => [] | _ => [unread_skeleton ph tx] end ++
          match r with ROk _ => [] | _ => [unread_config ph tx] end ++
          match s with ROk _ => [] | _ => new_skeleton ph :: match lk_skel lk with FAll => [] | _ => [uncreated_skeleton ph tx] end end ++
          match ph_identity ph with Some q => match lk_ident lk with FAll => [] | _ => [uncreated_identity q tx] end | None => [] end ++
          if lk_mac lk then
            match load_paths_file (f (ph_rtsp ph)) with Some _ => [] | None => [no_paths (lit "RTSP"%string) (tx_rtsp tx)] end ++
            match load_paths_file (f (ph_mjpeg ph)) with Some _ => [] | None => [no_paths (lit "MJPEG"%string) (tx_mjpeg tx)] end
          else []
        end
      else [].
Proof.
  intros hash aprint aparse uprint uparse jparse ph lk tx mac services flash f DP R1 R2 S. cbv zeta.
  rewrite (failed_records hash aprint aparse uprint uparse jparse ph lk tx mac services flash f DP R1 R2 S). unfold load_records. rewrite <- !app_assoc. reflexivity.
Qed.
Print Assumptions C154_failed.

(** The log does not depend on the password, neither on the one in the files nor on a new one, whether the start succeeds or not. *)
Theorem C154_password :
  forall (hash : ident -> N) (aprint : saddr -> bytes) (aparse : bytes -> option saddr) (uprint : N -> bytes) (uparse : bytes -> option N)
         (jparse : bytes -> option json) (ph : paths) (lk : luck) (tx : texts) (mac : N) (services : list (Z * service)) (flash : bool) (f g : fs) (x : N),
    distinct_paths ph -> ~ In (ph_rtsp ph) (own_files ph) -> ~ In (ph_mjpeg ph) (own_files ph) ->
    let rd := read_config aparse uparse jparse (lk_now lk) in
    same_but_password (rd (f (ph_config ph))) (rd (g (ph_config ph))) -> same_but_password (rd (f (ph_skel ph))) (rd (g (ph_skel ph))) ->
    f (ph_rtsp ph) = g (ph_rtsp ph) -> f (ph_mjpeg ph) = g (ph_mjpeg ph) ->
    start_log hash aprint aparse uprint uparse jparse ph lk tx mac services flash f =
    start_log hash aprint aparse uprint uparse jparse ph (with_password lk x) tx mac services flash g.
Proof. intros until x. apply no_password. Qed.
Print Assumptions C154_password.

Definition ex_texts : texts :=
  {| tx_skel := lit "no file"%string; tx_config := lit "no file"%string; tx_create := lit "read-only"%string; tx_ident := lit "full"%string;
     tx_rtsp := lit "no file"%string; tx_mjpeg := lit "no file"%string |}.
Definition ex_start_log (lk : luck) : list bytes := map j_text (start_log hash0 enc dec one unone jread ex_paths lk ex_texts 258 [] false no_files).
Example C154_case :
  distinct_paths ex_paths /\ ~ In (ph_rtsp ex_paths) (own_files ex_paths) /\ ~ In (ph_mjpeg ex_paths) (own_files ex_paths) /\
  (exists c, snd (ex_start ex_paths ex_luck2 [] false no_files) = ROk c) /\
  ex_start_log ex_luck2 =
  [lit "unable to read configuration file skeleton ""skel"" (no file)"%string; lit "unable to read configuration file ""config"" (no file)"%string;
   lit "creating configuration file skeleton ""skel"""%string; lit "unable to create configuration file skeleton ""skel"" (read-only)"%string;
   lit "unable to create identity file ""id"" (full)"%string; lit "unable to load RTSP paths (no file)"%string;
   lit "unable to load MJPEG paths (no file)"%string; lit "Arrow Client started (uuid: "%string ++ one 3 ++ lit ", mac: 00:00:00:00:01:02)"%string] /\
  ex_start_log (with_password ex_luck2 77) = ex_start_log ex_luck2.
Proof.
  split; [unfold distinct_paths; repeat (constructor; [vm_compute; intuition discriminate|]); constructor|].
  split; [vm_compute; intuition discriminate|]. split; [vm_compute; intuition discriminate|].
  split; [eexists; vm_compute; reflexivity|]. split; vm_compute; reflexivity.
Qed.
(** Without a MAC address the start fails after the files were read. *)
Definition no_mac (lk : luck) : luck :=
  {| lk_create := lk_create lk; lk_lock := lk_lock lk; lk_log := lk_log lk; lk_skel := lk_skel lk; lk_ident := lk_ident lk; lk_mac := false;
     lk_save := lk_save lk; lk_fresh := lk_fresh lk; lk_now := lk_now lk |}.
Example C154_failed_case :
  snd (ex_start ex_paths (no_mac ex_luck2) [] false no_files) = RErr /\ gets_lock ex_paths (no_mac ex_luck2) && gets_log ex_paths (no_mac ex_luck2) = true /\
  length (ex_start_log (no_mac ex_luck2)) = 5%nat /\ firstn 5 (ex_start_log ex_luck2) = ex_start_log (no_mac ex_luck2).
Proof. vm_compute. repeat split. Qed.
