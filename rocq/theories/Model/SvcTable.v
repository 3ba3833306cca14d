(** The service table. *)
From Coq Require Import NArith ZArith List Bool.
From Verif.Model Require Import Bytes Service Alist.
Import ListNotations.
Local Open Scope N_scope.

(** src/svc_table/mod.rs:36 *)
Definition ACTIVE_THRESHOLD : Z := 1200.

(** Two's complement wrapping to 64 bits. *)
Definition i64 (x : Z) : Z := ((x + 2 ^ 63) mod 2 ^ 64 - 2 ^ 63)%Z.

(** src/svc_table/mod.rs:107-122, `ServiceTableElement`. Times are UNIX timestamps in seconds. *)
Record entry := {
  n_id : N;
  n_svc : service;
  n_static : bool;
  n_enabled : bool;
  n_seen : Z;
  n_active : bool
}.

(** src/svc_table/mod.rs:131-140, `ServiceTableElement::new`; [now] is the clock. *)
Definition entry_new (now : Z) (id : N) (s : service) (static enabled : bool) : entry :=
  {| n_id := id; n_svc := s; n_static := static; n_enabled := enabled; n_seen := now; n_active := true |}.

(** src/svc_table/mod.rs:143-149 *)
Definition is_visible (e : entry) : bool := if n_static e then n_enabled e else n_active e.

(** src/svc_table/mod.rs:152-156 *)
Definition entry_update (now : Z) (e : entry) (s : service) (enabled : bool) : entry :=
  {| n_id := n_id e; n_svc := s; n_static := n_static e; n_enabled := enabled; n_seen := now; n_active := n_active e |}.

(** src/svc_table/mod.rs:159-161. The addition wraps in a release build. *)
Definition update_active_flag (now : Z) (e : entry) : entry :=
  {| n_id := n_id e; n_svc := n_svc e; n_static := n_static e; n_enabled := n_enabled e; n_seen := n_seen e;
     n_active := Z.geb (i64 (n_seen e + ACTIVE_THRESHOLD)) now |}.

(** Hash maps keyed by service identifiers. *)
Fixpoint ilookup (k : ident) (l : list (ident * N)) : option N :=
  match l with
  | [] => None
  | (k', v) :: l' => if ident_eq_dec k k' then Some v else ilookup k l'
  end.
Fixpoint iinsert (k : ident) (v : N) (l : list (ident * N)) : list (ident * N) :=
  match l with
  | [] => [(k, v)]
  | (k', v') :: l' => if ident_eq_dec k k' then (k, v) :: l' else (k', v') :: iinsert k v l'
  end.

(** src/svc_table/mod.rs:278-284, `ServiceTableData`. The maps are association lists; the order of
    their elements stands for the unspecified iteration order, so no property may depend on it. *)
Record table := {
  t_idents : list (ident * N);
  t_map : list (N * entry);
  t_version : N;
  t_vversion : N
}.

(** `wrapping_add(1)` on u32 and u16 *)
Definition bump (v : N) : N := (v + 1) mod 2 ^ 32.
Definition next16 (v : N) : N := (v + 1) mod 2 ^ 16.

Definition with_versions (t : table) (v vv : N) : table :=
  {| t_idents := t_idents t; t_map := t_map t; t_version := v; t_vversion := vv |}.
Definition with_map (t : table) (m : list (N * entry)) : table :=
  {| t_idents := t_idents t; t_map := m; t_version := t_version t; t_vversion := t_vversion t |}.

(** src/svc_table/mod.rs:126-128 and 287-303, `ServiceTableData::new` *)
Definition table_new (now : Z) : table :=
  let e := entry_new now 0 svc_control true true in
  {| t_idents := [(to_ident (n_svc e), 0)]; t_map := [(0, e)]; t_version := 0; t_vversion := 0 |}.

(** src/svc_table/mod.rs:321-331, `get` *)
Definition tbl_get (t : table) (id : N) : option service :=
  match alookup id (t_map t) with
  | Some e => if is_visible e || svc_is_control (n_svc e) then Some (n_svc e) else None
  | None => None
  end.

(** src/svc_table/mod.rs:335-347, `get_id` *)
Definition tbl_get_id (t : table) (k : ident) : result (option N) :=
  match ilookup k (t_idents t) with
  | Some id =>
      match alookup id (t_map t) with
      | None => RPanic
      | Some e => ROk (if is_visible e || svc_is_control (n_svc e) then Some id else None)
      end
  | None => ROk None
  end.

(** src/svc_table/mod.rs:350-357 and 511-527, `visible` *)
Definition tbl_visible (t : table) : list (N * service) :=
  map (fun p => (n_id (snd p), n_svc (snd p)))
      (filter (fun p => is_visible (snd p) && negb (svc_is_control (n_svc (snd p)))) (t_map t)).

(** The probing loop of src/svc_table/mod.rs:378-388: the first free ID from [cur] on, [None] is the
    panic "service table is full". The loop runs at most 2^16 times. *)
Fixpoint probe (fuel : nat) (m : list (N * entry)) (start cur : N) : option N :=
  match fuel with
  | O => None
  | S f =>
      match alookup cur m with
      | None => Some cur
      | Some _ =>
          let cur' := next16 cur in
          if N.eqb cur' start then None else probe f m start cur'
      end
  end.

(** src/svc_table/mod.rs:378-397, `add_element`, with at most [fuel] iterations of the loop *)
Definition add_element_fuel (fuel : nat) (t : table) (e : entry) : result (N * table) :=
  match probe fuel (t_map t) (n_id e) (n_id e) with
  | None => RPanic
  | Some id =>
      let e' := {| n_id := id; n_svc := n_svc e; n_static := n_static e; n_enabled := n_enabled e;
                   n_seen := n_seen e; n_active := n_active e |} in
      ROk (id, {| t_idents := iinsert (to_ident (n_svc e)) id (t_idents t);
                  t_map := ainsert id e' (t_map t); t_version := t_version t; t_vversion := t_vversion t |})
  end.

Definition add_element (t : table) (e : entry) : result (N * table) := add_element_fuel (N.to_nat (2 ^ 16)) t e.

(** src/svc_table/mod.rs:400-419, `update_element` *)
Definition update_element (now : Z) (t : table) (id : N) (s : service) (enabled : bool) : result (N * table) :=
  match alookup id (t_map t) with
  | None => RPanic
  | Some e =>
      let svc_change := if service_eq_dec (n_svc e) s then false else true in
      let e' := entry_update now e s enabled in
      let v := if svc_change then bump (t_version t) else t_version t in
      let vv := if xorb (is_visible e) (is_visible e') || (is_visible e' && svc_change)
                then bump (t_vversion t) else t_vversion t in
      ROk (id, with_versions (with_map t (ainsert id e' (t_map t))) v vv)
  end.

(** src/svc_table/mod.rs:435-445, `update_active_services` *)
Definition tbl_refresh (now : Z) (t : table) : table :=
  let m := map (fun p => (fst p, update_active_flag now (snd p))) (t_map t) in
  let changed := filter (fun p => xorb (is_visible (snd p)) (is_visible (update_active_flag now (snd p)))) (t_map t) in
  with_versions (with_map t m) (t_version t) (fold_left (fun v _ => bump v) changed (t_vversion t)).

Section Hash.
  (** `stable_hash` (src/svc_table/mod.rs:39-70): any function into u64 (the farmhash crate). *)
  Variable hash : ident -> N.

  (** src/svc_table/mod.rs:360-375, `add_service` *)
  Definition add_service (now : Z) (t : table) (s : service) (static enabled : bool) : result (N * table) :=
    let k := to_ident s in
    let id := u16 (hash k) in
    match ilookup k (t_idents t) with
    | Some _ => RPanic
    | None =>
        let e := entry_new now id s static enabled in
        let vv := if is_visible e then bump (t_vversion t) else t_vversion t in
        add_element (with_versions t (bump (t_version t)) vv) e
    end.

  (** src/svc_table/mod.rs:422-432, `update` *)
  Definition tbl_update (now : Z) (t : table) (s : service) (static enabled : bool) : result (N * table) :=
    match ilookup (to_ident s) (t_idents t) with
    | Some id => update_element now t id s enabled
    | None => add_service now t s static enabled
    end.

  (** src/svc_table/mod.rs:571-578, `add` and `add_static` *)
  Definition tbl_add (now : Z) (t : table) (s : service) : result (N * table) := tbl_update now t s false true.
  Definition tbl_add_static (now : Z) (t : table) (s : service) : result (N * table) := tbl_update now t s true true.

  (** The operations of a table (each is one locked section; lookups do not change it). *)
  Inductive top :=
  | TAdd (now : Z) (s : service)
  | TAddStatic (now : Z) (s : service)
  | TRefresh (now : Z).

  Definition tbl_step (t : table) (o : top) : result table :=
    match o with
    | TAdd now s => match tbl_add now t s with ROk (_, t') => ROk t' | RErr => RErr | RPanic => RPanic end
    | TAddStatic now s => match tbl_add_static now t s with ROk (_, t') => ROk t' | RErr => RErr | RPanic => RPanic end
    | TRefresh now => ROk (tbl_refresh now t)
    end.

  Fixpoint tbl_run (t : table) (os : list top) : result table :=
    match os with
    | [] => ROk t
    | o :: os' => match tbl_step t o with ROk t' => tbl_run t' os' | RErr => RErr | RPanic => RPanic end
    end.
End Hash.
