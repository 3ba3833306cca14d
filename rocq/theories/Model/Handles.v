(** The objects of the C interface: who owns what, and what they are made of. *)
From Coq Require Import NArith List Bool.
From Verif.Model Require Import Bytes Utf8 Alist.
Import ListNotations.
Local Open Scope N_scope.

(** A logger is a number; clones of a logger are the same logger (they log to the same place;
    src/utils/logger/mod.rs:117-151, src/exports/logger.rs:83-98). *)
Definition logger := N.

(** src/config.rs:113-127, the fields of `ConfigBuilder` that can be set from C *)
Record cconf := { cc_logger : option logger; cc_mac : option N; cc_diag : bool; cc_discovery : bool; cc_verbose : bool }.
(** src/config.rs:130-146 *)
Definition cconf_new : cconf := {| cc_logger := None; cc_mac := None; cc_diag := false; cc_discovery := false; cc_verbose := false |}.

(** The functions of a custom storage (src/exports/storage/custom.rs:58-67) and the files of the default
    storage (src/storage.rs:71-82) that are set one by one. *)
Inductive func := FSaveConf | FLoadConf | FSaveState | FRtsp | FMjpeg | FCerts.
Inductive file := LSkeleton | LState | LIdentity | LRtsp | LMjpeg.
Definition func_eqb (a b : func) : bool :=
  match a, b with
  | FSaveConf, FSaveConf | FLoadConf, FLoadConf | FSaveState, FSaveState | FRtsp, FRtsp | FMjpeg, FMjpeg | FCerts, FCerts => true
  | _, _ => false
  end.
Definition file_eqb (a b : file) : bool :=
  match a, b with
  | LSkeleton, LSkeleton | LState, LState | LIdentity, LIdentity | LRtsp, LRtsp | LMjpeg, LMjpeg => true
  | _, _ => false
  end.
(** src/exports/storage/custom.rs:58-82; functions and the opaque pointer are numbers *)
Record ccustom := { cu_opaque : N; cu_funcs : func -> option N }.
Definition ccustom_new (opaque : N) : ccustom := {| cu_opaque := opaque; cu_funcs := fun _ => None |}.
(** src/storage.rs:71-82 and 188-234 *)
Record cdefault := { de_config : bytes; de_lock : option bytes; de_files : file -> option bytes; de_certs : list bytes; de_logger : option logger }.
Definition cdefault_new (config : bytes) (lock : option bytes) : cdefault :=
  {| de_config := config; de_lock := lock; de_files := fun _ => None; de_certs := []; de_logger := None |}.

(** src/exports/storage/mod.rs:29-44, `DynStorage` *)
Inductive cstorage := SCustom (c : ccustom) | SDefault (d : cdefault).
(** src/exports/mod.rs:115-119, `NativeArrowClient`, as it was made; whether its task is there *)
Record cclient := { cl_conf : cconf; cl_storage : cstorage; cl_addr : bytes; cl_task : bool }.

(** What a box given to C contains. A service table is its number of services (its content: Exports.v). *)
Inductive object :=
| BLogger (l : logger)
| BConfig (c : cconf)
| BCustom (c : ccustom)
| BDefault (d : cdefault)
| BStorage (s : cstorage)
| BClient (c : cclient)
| BJoin
| BTable (n : N).

(** The boxes there are, by address. *)
Definition boxes := list (N * object).

(** A C string, or a null pointer *)
Definition cstr := bytes.

(** The calls. Results that depend on the world (whether a file could be opened, a client be made; the
    number of services) are part of the call. *)
Inductive call :=
| LoggerNew (l : logger)                          (* ac__logger__custom, ac__logger__syslog, ac__logger__stderr *)
| LoggerFile (path : cstr) (l : option logger)    (* ac__logger__file *)
| LoggerClone (p : N)
| LoggerFree (p : N)
| ConfigNew
| ConfigFree (p : N)
| ConfigLogger (p q : N)
| ConfigMac (p : N) (m : option N)
| ConfigDiag (p : N) (b : bool)
| ConfigDiscovery (p : N) (b : bool)
| ConfigVerbose (p : N) (b : bool)
| CustomNew (opaque : N)
| CustomFree (p : N)
| CustomSet (p : N) (f : func) (v : N)             (* function pointers are not null *)
| CustomBuild (p : N)
| DefaultNew (config : cstr) (lock : option cstr) (ok : bool)
| DefaultFree (p : N)
| DefaultSet (p : N) (f : file) (v : option cstr)
| DefaultCert (p : N) (v : cstr)
| DefaultLogger (p q : N)
| DefaultBuild (p : N)
| StorageFree (p : N)
| ClientNew (c s : N) (addr : cstr) (ok : bool)
| ClientFree (p : N)
| ClientStart (p : N)
| ClientStartBlocking (p : N)
| ClientUse (p : N)                               (* close, callbacks, UUID, MAC address, scan, rescan *)
| ClientTable (p : N) (n : N)
| JoinFree (p : N)
| JoinJoin (p : N)
| TableFree (p : N)
| TableCount (p : N)
| ServiceUse (p : N) (i : N).                     (* ac__service_table__get_service and ac__service__* *)

(** The result of a call: a number (a pointer, 0 for null, or 0 for nothing) and the boxes after it,
    undefined behaviour, or a panic, which aborts as it cannot leave an `extern "C"` function. *)
Inductive hout := HVal (r : N) (b : boxes) | HUndefined | HAbort.

(** src/exports/mod.rs:40-56, `cstr_to_str`, `optional_cstr_to_str`: no check; a `str` that is not UTF-8 is
    undefined behaviour sooner or later. *)
Definition with_str (s : cstr) (k : hout) : hout := if utf8_valid s then k else HUndefined.
Definition with_opt (s : option cstr) (k : hout) : hout := match s with Some s => with_str s k | None => k end.

Definition remove (p : N) (b : boxes) : boxes := filter (fun x => negb (fst x =? p)) b.
Definition replace (p : N) (o : object) (b : boxes) : boxes := map (fun x => if fst x =? p then (p, o) else x) b.

Section Allocator.
  (** The address of a new box, given those in use; [n] is any number. *)
  Variable fresh : N -> list N -> N.

  (** `Box::into_raw(Box::new(..))` *)
  Definition give (n : N) (o : object) (b : boxes) : hout := let p := fresh n (map fst b) in HVal p ((p, o) :: b).

  (** `&mut *p` and `Box::from_raw(p)` need a box of that type. *)
  Definition look (p : N) (b : boxes) (k : object -> hout) : hout := match alookup p b with Some o => k o | None => HUndefined end.

  (** src/exports/*.rs; [n] is the number of the call *)
  Definition api (n : N) (b : boxes) (c : call) : hout :=
    match c with
    (* src/exports/logger.rs:118-171 *)
    | LoggerNew l => give n (BLogger l) b
    | LoggerFile path l => with_str path (match l with Some l => give n (BLogger l) b | None => HVal 0 b end)
    | LoggerClone p => look p b (fun o => match o with BLogger l => give n (BLogger l) b | _ => HUndefined end)
    | LoggerFree p => look p b (fun o => match o with BLogger _ => HVal 0 (remove p b) | _ => HUndefined end)
    (* src/exports/config.rs:25-86 *)
    | ConfigNew => give n (BConfig cconf_new) b
    | ConfigFree p => look p b (fun o => match o with BConfig _ => HVal 0 (remove p b) | _ => HUndefined end)
    | ConfigLogger p q =>
        look q b (fun o => match o with
          | BLogger l => look p (remove q b) (fun o => match o with
              | BConfig c => HVal 0 (replace p (BConfig {| cc_logger := Some l; cc_mac := cc_mac c; cc_diag := cc_diag c;
                               cc_discovery := cc_discovery c; cc_verbose := cc_verbose c |}) (remove q b))
              | _ => HUndefined end)
          | _ => HUndefined end)
    | ConfigMac p m => look p b (fun o => match o with
        | BConfig c => HVal 0 (replace p (BConfig {| cc_logger := cc_logger c; cc_mac := m; cc_diag := cc_diag c;
                         cc_discovery := cc_discovery c; cc_verbose := cc_verbose c |}) b)
        | _ => HUndefined end)
    | ConfigDiag p v => look p b (fun o => match o with
        | BConfig c => HVal 0 (replace p (BConfig {| cc_logger := cc_logger c; cc_mac := cc_mac c; cc_diag := v;
                         cc_discovery := cc_discovery c; cc_verbose := cc_verbose c |}) b)
        | _ => HUndefined end)
    | ConfigDiscovery p v => look p b (fun o => match o with
        | BConfig c => HVal 0 (replace p (BConfig {| cc_logger := cc_logger c; cc_mac := cc_mac c; cc_diag := cc_diag c;
                         cc_discovery := v; cc_verbose := cc_verbose c |}) b)
        | _ => HUndefined end)
    | ConfigVerbose p v => look p b (fun o => match o with
        | BConfig c => HVal 0 (replace p (BConfig {| cc_logger := cc_logger c; cc_mac := cc_mac c; cc_diag := cc_diag c;
                         cc_discovery := cc_discovery c; cc_verbose := v |}) b)
        | _ => HUndefined end)
    (* src/exports/storage/custom.rs:230-310 *)
    | CustomNew opaque => give n (BCustom (ccustom_new opaque)) b
    | CustomFree p => look p b (fun o => match o with BCustom _ => HVal 0 (remove p b) | _ => HUndefined end)
    | CustomSet p f v => look p b (fun o => match o with
        | BCustom c => HVal 0 (replace p (BCustom {| cu_opaque := cu_opaque c;
                         cu_funcs := fun g => if func_eqb g f then Some v else cu_funcs c g |}) b)
        | _ => HUndefined end)
    | CustomBuild p => look p b (fun o => match o with BCustom c => give n (BStorage (SCustom c)) (remove p b) | _ => HUndefined end)
    (* src/exports/storage/default.rs:28-128 *)
    | DefaultNew config lock ok =>
        with_str config (with_opt lock (if ok then give n (BDefault (cdefault_new config lock)) b else HVal 0 b))
    | DefaultFree p => look p b (fun o => match o with BDefault _ => HVal 0 (remove p b) | _ => HUndefined end)
    | DefaultSet p f v => look p b (fun o => match o with
        | BDefault d => with_opt v (HVal 0 (replace p (BDefault {| de_config := de_config d; de_lock := de_lock d;
            de_files := fun g => if file_eqb g f then v else de_files d g; de_certs := de_certs d; de_logger := de_logger d |}) b))
        | _ => HUndefined end)
    | DefaultCert p v => look p b (fun o => match o with
        | BDefault d => with_str v (HVal 0 (replace p (BDefault {| de_config := de_config d; de_lock := de_lock d;
            de_files := de_files d; de_certs := de_certs d ++ [v]; de_logger := de_logger d |}) b))
        | _ => HUndefined end)
    | DefaultLogger p q =>
        look q b (fun o => match o with
          | BLogger l => look p (remove q b) (fun o => match o with
              | BDefault d => HVal 0 (replace p (BDefault {| de_config := de_config d; de_lock := de_lock d; de_files := de_files d;
                                de_certs := de_certs d; de_logger := Some l |}) (remove q b))
              | _ => HUndefined end)
          | _ => HUndefined end)
    | DefaultBuild p => look p b (fun o => match o with BDefault d => give n (BStorage (SDefault d)) (remove p b) | _ => HUndefined end)
    (* src/exports/storage/mod.rs:79-83 *)
    | StorageFree p => look p b (fun o => match o with BStorage _ => HVal 0 (remove p b) | _ => HUndefined end)
    (* src/exports/mod.rs:121-272 *)
    | ClientNew c s addr ok =>
        look c b (fun o => match o with
          | BConfig cf => look s (remove c b) (fun o => match o with
              | BStorage st => with_str addr (
                  let b' := remove s (remove c b) in
                  if ok then give n (BClient {| cl_conf := cf; cl_storage := st; cl_addr := addr; cl_task := true |}) b' else HVal 0 b')
              | _ => HUndefined end)
          | _ => HUndefined end)
    | ClientFree p => look p b (fun o => match o with BClient _ => HVal 0 (remove p b) | _ => HUndefined end)
    | ClientStart p => look p b (fun o => match o with
        | BClient c =>
            if cl_task c
            then give n BJoin (replace p (BClient {| cl_conf := cl_conf c; cl_storage := cl_storage c; cl_addr := cl_addr c; cl_task := false |}) b)
            else HVal 0 b
        | _ => HUndefined end)
    | ClientStartBlocking p => look p b (fun o => match o with
        | BClient c => HVal 0 (replace p (BClient {| cl_conf := cl_conf c; cl_storage := cl_storage c; cl_addr := cl_addr c; cl_task := false |}) b)
        | _ => HUndefined end)
    | ClientUse p => look p b (fun o => match o with BClient _ => HVal 0 b | _ => HUndefined end)
    | ClientTable p k => look p b (fun o => match o with BClient _ => give n (BTable k) b | _ => HUndefined end)
    | JoinFree p | JoinJoin p => look p b (fun o => match o with BJoin => HVal 0 (remove p b) | _ => HUndefined end)
    (* src/exports/svc_table.rs:82-178 *)
    | TableFree p => look p b (fun o => match o with BTable _ => HVal 0 (remove p b) | _ => HUndefined end)
    | TableCount p => look p b (fun o => match o with BTable k => HVal k b | _ => HUndefined end)
    | ServiceUse p i => look p b (fun o => match o with BTable k => if i <? k then HVal 0 b else HAbort | _ => HUndefined end)
    end.

  (** A sequence of calls from the [n]-th on; the results are part of the observation, oldest first. *)
  Fixpoint api_run (n : N) (b : boxes) (cs : list call) : list N * hout :=
    match cs with
    | [] => ([], HVal 0 b)
    | c :: cs' =>
        match api n b c with
        | HVal r b' => let '(rs, o) := api_run (n + 1) b' cs' in (r :: rs, o)
        | x => ([], x)
        end
    end.
End Allocator.
