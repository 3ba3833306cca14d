(** The start of the client: files, in the order in which they are touched.

    Files are byte strings, the parser of JSON text (`json::parse` of the `json` crate) is an argument. The content of the
    log file is not followed. *)
From Coq Require Import NArith ZArith List Bool.
From Verif.Model Require Import Bytes Text Service Alist SvcTable TableJson Config JsonText.
Import ListNotations.
Local Open Scope N_scope.
Local Open Scope list_scope.

Definition fs := bytes -> option bytes.
Definition put (f : fs) (p c : bytes) : fs := fun q => if beq q p then Some c else f q.

(** The fate of `File::create` and `write`: everything is written, the file cannot be opened, or it is truncated and the
    write fails (or the process dies) after [n] bytes, before the last one. *)
Inductive fate := FAll | FNone | FSome (n : nat).
Definition cut (d : bytes) (n : nat) : bytes := firstn (Nat.min n (List.length d - 1)) d.

(** The files of the command line, src/config.rs:438-448 *)
Record paths := { ph_lock : option bytes; ph_log : option bytes; ph_config : bytes; ph_skel : bytes; ph_identity : option bytes;
                  ph_rtsp : bytes; ph_mjpeg : bytes }.
(** What the world decides during a start. *)
Record luck := { lk_create : bool; lk_lock : bool; lk_log : bool; lk_skel : fate; lk_ident : fate; lk_mac : bool; lk_save : fate;
                 lk_fresh : N * N; lk_now : Z }.

(** File operations. [OCreate]: the file is truncated; [OLock]: the exclusive lock is taken; [OAppend]: opened for
    appending, created if missing; [ORead]; [OWrite p c]: created with the content [c]. *)
Inductive fop := OCreate (p : bytes) | OLock (p : bytes) | OAppend (p : bytes) | ORead (p : bytes) | OWrite (p c : bytes).
Definition apply_op (f : fs) (o : fop) : fs :=
  match o with
  | OCreate p => put f p []
  | OLock _ => f
  | OAppend p => match f p with Some _ => f | None => put f p [] end
  | ORead _ => f
  | OWrite p c => put f p c
  end.
Definition apply_ops (f : fs) (l : list fop) : fs := fold_left apply_op l f.

(** src/storage.rs:447-469: `File::create` and `write` of a document *)
Definition write_doc (p : bytes) (j : json) (x : fate) : list fop :=
  match x with FAll => [OWrite p (jdump j)] | FNone => [] | FSome n => [OWrite p (cut (jdump j) n)] end.

Section Start.
  Variable hash : ident -> N.
  Variable aprint : saddr -> bytes.
  Variable aparse : bytes -> option saddr.
  Variable uprint : N -> bytes.
  Variable uparse : bytes -> option N.
  Variable jparse : bytes -> option json.

  (** src/storage.rs:425-445, `load_configuration_file` *)
  Definition read_config (now : Z) (c : option bytes) : result pconfig := load_file aparse uparse now (bind c jparse).

  (** src/storage.rs:188-234, `DefaultStorage::builder`: the lock file *)
  Definition take_lock (ph : paths) (lk : luck) : list fop * bool :=
    match ph_lock ph with
    | None => ([], true)
    | Some p => if lk_create lk then if lk_lock lk then ([OCreate p; OLock p], true) else ([OCreate p], false) else ([], false)
    end.
  (** src/config.rs:408-429, `create_logger` *)
  Definition open_log (ph : paths) (lk : luck) : list fop * bool :=
    match ph_log ph with None => ([], true) | Some p => if lk_log lk then ([OAppend p], true) else ([], false) end.

  (** src/storage.rs:251-326, `load_configuration`, from the files [f] *)
  Definition load_ops (ph : paths) (lk : luck) (f : fs) : list fop * result pconfig :=
    let reads := [ORead (ph_skel ph); ORead (ph_config ph)] in
    match read_config (lk_now lk) (f (ph_skel ph)) with
    | RPanic => ([ORead (ph_skel ph)], RPanic)
    | s =>
        match read_config (lk_now lk) (f (ph_config ph)) with
        | RPanic => (reads, RPanic)
        | r =>
            let p := match r, s with
                     | ROk p, _ => p
                     | _, ROk p => p
                     | _, _ => {| p_uuid := fst (lk_fresh lk); p_passwd := snd (lk_fresh lk); p_version := 0; p_table := table_new (lk_now lk) |}
                     end in
            (reads ++
             match s with
             | ROk _ => []
             | _ => write_doc (ph_skel ph) (pconfig_to_json aprint uprint (to_skeleton (lk_now lk) p)) (lk_skel lk)
             end ++
             match ph_identity ph with
             | Some q => write_doc q (identity_doc uprint (p_uuid p)) (lk_ident lk)
             | None => []
             end, ROk p)
        end
    end.

  (** src/config.rs:252-324 `ConfigBuilder::build` and 432-479 `ConfigParser::build`: the file operations and the
      configuration of the client that starts *)
  Definition start (ph : paths) (lk : luck) (services : list (Z * service)) (flash : bool) (f : fs) : list fop * result config :=
    let '(o1, ok1) := take_lock ph lk in
    if negb ok1 then (o1, RErr)
    else
      let '(o2, ok2) := open_log ph lk in
      if negb ok2 then (o1 ++ o2, RErr)
      else
        let '(o3, r) := load_ops ph lk (apply_ops f (o1 ++ o2)) in
        match r with
        | RErr => (o1 ++ o2 ++ o3, RErr)
        | RPanic => (o1 ++ o2 ++ o3, RPanic)
        | ROk p =>
            if negb (lk_mac lk) then (o1 ++ o2 ++ o3, RErr)
            else
              let o4 := [ORead (ph_rtsp ph); ORead (ph_mjpeg ph)] in
              match build_config hash p services flash with
              | RErr => (o1 ++ o2 ++ o3 ++ o4, RErr)
              | RPanic => (o1 ++ o2 ++ o3 ++ o4, RPanic)
              | ROk c =>
                  let t := nth O (g_heap c) (table_new (lk_now lk)) in
                  let o5 := write_doc (ph_config ph) (pconfig_to_json aprint uprint (to_persistent c t)) (lk_save lk) in
                  (o1 ++ o2 ++ o3 ++ o4 ++ o5, match lk_save lk with FAll => ROk c | _ => RErr end)
              end
        end.
End Start.
