(** The application configuration: service table handles, saving, loading, crashes. *)
From Coq Require Import NArith ZArith List Bool String.
From Verif.Model Require Import Bytes Service Alist SvcTable TableJson.
Import ListNotations.
Local Open Scope N_scope.
Local Open Scope list_scope.

(** src/config.rs:834-840, `PersistentConfig`. UUIDs are numbers; the version (usize) is not bounded. *)
Record pconfig := { p_uuid : N; p_passwd : N; p_version : N; p_table : table }.

(** src/config.rs:930-951, `Config`: the fields used after start. Every `SharedServiceTable` value is a
    cell of [g_heap]; [g_cur] is the cell of `svc_table`. A read-only reference (`get_ref`) is the index
    of its cell. `default_svc_table` is only cloned, so it is kept by value. *)
Record config := {
  g_uuid : N;
  g_passwd : N;
  g_version : N;
  g_heap : list table;
  g_cur : nat;
  g_default : table;
  g_flash : bool
}.

Fixpoint set_nth {A : Type} (n : nat) (x : A) (l : list A) : list A :=
  match l, n with
  | [], _ => []
  | _ :: l', O => x :: l'
  | y :: l', S n' => y :: set_nth n' x l'
  end.

(** The table behind a reference. *)
Definition cell (c : config) (h : nat) : option table := nth_error (g_heap c) h.

(** src/config.rs:1065-1069, `get_service_table` *)
Definition get_service_table (c : config) : nat := g_cur c.

(** src/config.rs:1154-1162, `to_persistent_config`: the clone of the current table *)
Definition to_persistent (c : config) (t : table) : pconfig :=
  {| p_uuid := g_uuid c; p_passwd := g_passwd c; p_version := g_version c; p_table := t |}.

Definition with_heap (c : config) (h : list table) (cur : nat) (v : N) : config :=
  {| g_uuid := g_uuid c; g_passwd := g_passwd c; g_version := v; g_heap := h; g_cur := cur;
     g_default := g_default c; g_flash := g_flash c |}.

(** src/config.rs:1071-1081, `reset_service_table`: a new cell, and the document that is written. *)
Definition cfg_reset (c : config) : config * pconfig :=
  let c' := with_heap c (g_heap c ++ [g_default c]) (List.length (g_heap c)) (g_version c + 1) in
  (c', to_persistent c' (g_default c)).

Section Hash.
  Variable hash : ident -> N.

  (** The loop of src/config.rs:1092-1094; each addition reads the clock. *)
  Fixpoint add_all (t : table) (l : list (Z * service)) : result table :=
    match l with
    | [] => ROk t
    | (now, s) :: l' =>
        match tbl_add hash now t s with
        | ROk (_, t') => add_all t' l'
        | RErr => RErr
        | RPanic => RPanic
        end
    end.

  (** src/config.rs:1083-1112, `update_service_table`; the document is [None] when nothing is written *)
  Definition cfg_update (c : config) (l : list (Z * service)) (now : Z) : result (config * option pconfig) :=
    match nth_error (g_heap c) (g_cur c) with
    | None => RPanic
    | Some t =>
        match add_all t l with
        | ROk t1 =>
            let t2 := tbl_refresh now t1 in
            let heap := set_nth (g_cur c) t2 (g_heap c) in
            if N.eqb (t_version t) (t_version t2) && (g_flash c || N.eqb (t_vversion t) (t_vversion t2))
            then ROk (with_heap c heap (g_cur c) (g_version c), None)
            else let c' := with_heap c heap (g_cur c) (g_version c + 1) in
                 ROk (c', Some (to_persistent c' t2))
        | RErr => RErr
        | RPanic => RPanic
        end
    end.

  Section Storage.
    Variable aprint : saddr -> bytes.
    Variable aparse : bytes -> option saddr.
    (** `Uuid::as_hyphenated` and `Uuid::from_str` (the uuid crate) *)
    Variable uprint : N -> bytes.
    Variable uparse : bytes -> option N.

    (** src/config.rs:877-886 *)
    Definition pconfig_to_json (p : pconfig) : json :=
      JObj [ (lit "uuid", JStr (uprint (p_uuid p)));
             (lit "passwd", JStr (uprint (p_passwd p)));
             (lit "version", JNum (Z.of_N (p_version p)));
             (lit "svc_table", table_to_json aprint (p_table p)) ].

    (** `as_usize` *)
    Definition as_usize (j : json) : option N :=
      match j with JNum z => if (0 <=? z)%Z then Some (Z.to_N z) else None | _ => None end.

    (** src/config.rs:888-928 *)
    Definition pconfig_from_json (now : Z) (j : json) : result pconfig :=
      match j with
      | JObj o =>
          match field_of (lit "svc_table") o with
          | None => RErr
          | Some jt =>
              match table_from_json aparse now jt with
              | RErr => RErr
              | RPanic => RPanic
              | ROk t =>
                  match bind (field_of (lit "uuid") o) as_str, bind (field_of (lit "passwd") o) as_str,
                        bind (field_of (lit "version") o) as_usize with
                  | Some u, Some p, Some v =>
                      match uparse u, uparse p with
                      | Some u', Some p' => ROk {| p_uuid := u'; p_passwd := p'; p_version := v; p_table := t |}
                      | _, _ => RErr
                      end
                  | _, _, _ => RErr
                  end
              end
          end
      | _ => RErr
      end.

    (** A file: [None] is missing, unreadable or not a JSON document (a partially written document is
        never one: it lacks the closing brace). *)
    Definition file := option json.

    (** src/storage.rs:424-445, `load_configuration_file`. A panic of the table loader (more than 65535
        entries) ends the process. *)
    Definition load_file (now : Z) (f : file) : result pconfig :=
      match f with Some j => pconfig_from_json now j | None => RErr end.

    (** Outcome of src/storage.rs:447-457, `save_configuration_file`, which truncates the file and then
        writes: it was written, it could not be opened, or it was truncated but the document did not make
        it to the file (error or crash in between). *)
    Inductive wres := Wrote | Kept | Torn.
    Definition write_file (f : file) (p : pconfig) (w : wres) : file :=
      match w with Wrote => Some (pconfig_to_json p) | Kept => f | Torn => None end.

    (** src/config.rs:854-863, `to_skeleton` *)
    Definition to_skeleton (now : Z) (p : pconfig) : pconfig :=
      {| p_uuid := p_uuid p; p_passwd := p_passwd p; p_version := 0; p_table := table_new now |}.

    (** src/storage.rs:251-326, `load_configuration`: the configuration and the skeleton file afterwards.
        [fresh] is the configuration with new random UUIDs; [wsk] is the fate of the write of the
        skeleton. The identity file is write-only and not modelled. *)
    Definition load_configuration (now : Z) (use_skeleton : bool) (cfg skel : file) (fresh : N * N) (wsk : wres)
      : result (pconfig * file) :=
      let s := if use_skeleton then load_file now skel else RErr in
      match s with
      | RPanic => RPanic
      | _ =>
          match load_file now cfg with
          | RPanic => RPanic
          | r =>
              let p := match r, s with
                       | ROk p, _ => p
                       | _, ROk p => p
                       | _, _ => {| p_uuid := fst fresh; p_passwd := snd fresh; p_version := 0; p_table := table_new now |}
                       end in
              let skel' := match s with
                           | ROk _ => skel
                           | _ => if use_skeleton then write_file skel (to_skeleton now p) wsk else skel
                           end in
              ROk (p, skel')
          end
      end.

    Fixpoint add_static_all (t : table) (l : list (Z * service)) : result table :=
      match l with
      | [] => ROk t
      | (now, s) :: l' =>
          match tbl_add_static hash now t s with
          | ROk (_, t') => add_static_all t' l'
          | RErr => RErr
          | RPanic => RPanic
          end
      end.

    (** src/config.rs:288-323, the rest of `ConfigBuilder::build` before the final save: static services
        are added to both tables (each addition reads the clock; the same value is used for both here). *)
    Definition build_config (p : pconfig) (services : list (Z * service)) (flash : bool) : result config :=
      match add_static_all (p_table p) services with
      | ROk t => ROk {| g_uuid := p_uuid p; g_passwd := p_passwd p; g_version := p_version p;
                        g_heap := [t]; g_cur := O; g_default := t; g_flash := flash |}
      | RErr => RErr
      | RPanic => RPanic
      end.

    (** The computer: two files and at most one running client. *)
    Record world := { w_config : file; w_skel : file; w_app : option config }.

    Inductive wevent :=
    | WStart (fresh : N * N) (now : Z) (wsk : wres) (stop : bool) (services : list (Z * service)) (w : wres)
        (** the client starts; [stop]: it is killed after loading; [w]: fate of the save that ends the start; a
            panic is taken to end the client *)
    | WScan (services : list (Z * service)) (now : Z) (w : wres)
    | WReset (w : wres)
    | WKill.

    (** One event; the second component is the identity of a client that has started. *)
    Definition world_step (use_skeleton flash : bool) (s : world) (e : wevent) : world * option (N * N) :=
      match e, w_app s with
      | WStart fresh now wsk stop services w, None =>
          match load_configuration now use_skeleton (w_config s) (w_skel s) fresh wsk with
          | ROk (p, skel') =>
              let s1 := {| w_config := w_config s; w_skel := skel'; w_app := None |} in
              if stop then (s1, None)
              else match build_config p services flash with
                   | ROk c =>
                       let t := nth O (g_heap c) (table_new now) in
                       let cfg' := write_file (w_config s) (to_persistent c t) w in
                       match w with
                       | Wrote => ({| w_config := cfg'; w_skel := skel'; w_app := Some c |}, Some (g_uuid c, g_passwd c))
                       | _ => ({| w_config := cfg'; w_skel := skel'; w_app := None |}, None)
                       end
                   | _ => (s1, None)
                   end
          | _ => (s, None)
          end
      | WScan services now w, Some c =>
          match cfg_update c services now with
          | ROk (c', Some p) => ({| w_config := write_file (w_config s) p w; w_skel := w_skel s; w_app := Some c' |}, None)
          | ROk (c', None) => ({| w_config := w_config s; w_skel := w_skel s; w_app := Some c' |}, None)
          | _ => ({| w_config := w_config s; w_skel := w_skel s; w_app := None |}, None)
          end
      | WReset w, Some c =>
          let '(c', p) := cfg_reset c in
          ({| w_config := write_file (w_config s) p w; w_skel := w_skel s; w_app := Some c' |}, None)
      | WKill, _ => ({| w_config := w_config s; w_skel := w_skel s; w_app := None |}, None)
      | _, _ => (s, None)
      end.

    (** The identities used by the successful starts of a history. *)
    Fixpoint world_run (use_skeleton flash : bool) (s : world) (es : list wevent) : world * list (N * N) :=
      match es with
      | [] => (s, [])
      | e :: es' =>
          let '(s1, o) := world_step use_skeleton flash s e in
          let '(s2, l) := world_run use_skeleton flash s1 es' in
          (s2, match o with Some i => i :: l | None => l end)
      end.
  End Storage.
End Hash.
