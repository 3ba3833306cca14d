(** JSON form of the service table. *)
From Coq Require Import NArith ZArith List Bool String.
From Verif.Model Require Import Bytes Service Alist SvcTable Mac.
Import ListNotations.
Local Open Scope N_scope.
Local Open Scope list_scope.

(** `json::JsonValue`. Numbers are integers here; the text form of JSON documents (the json crate) is
    not modelled. *)
Inductive json :=
| JNull
| JBool (b : bool)
| JNum (z : Z)
| JStr (s : bytes)
| JArr (l : list json)
| JObj (l : list (bytes * json)).

(** `Object::get` and `Object::remove`: keys are unique in a parsed document. *)
Fixpoint field_of (k : bytes) (l : list (bytes * json)) : option json :=
  match l with
  | [] => None
  | (k', v) :: l' => if beq k k' then Some v else field_of k l'
  end.

(** `as_u16`, `as_i64`, `as_str`, `as_bool`; [bind] is `and_then`. *)
Definition as_u16 (j : json) : option N :=
  match j with JNum z => if (0 <=? z)%Z && (z <? 65536)%Z then Some (Z.to_N z) else None | _ => None end.
Definition as_i64 (j : json) : option Z :=
  match j with JNum z => if (- 2 ^ 63 <=? z)%Z && (z <? 2 ^ 63)%Z then Some z else None | _ => None end.
Definition as_str (j : json) : option bytes := match j with JStr s => Some s | _ => None end.
Definition as_bool (j : json) : option bool := match j with JBool b => Some b | _ => None end.
Definition bind {A B : Type} (o : option A) (f : A -> option B) : option B :=
  match o with Some a => f a | None => None end.
Definition or_else {A : Type} (o : option A) (d : A) : A := match o with Some a => a | None => d end.

Section Address.
  (** `Display` and `FromStr` of `SocketAddr` (Rust standard library). *)
  Variable aprint : saddr -> bytes.
  Variable aparse : bytes -> option saddr.

  (** src/svc_table/mod.rs:168-190 *)
  Definition entry_to_json (e : entry) : json :=
    let s := n_svc e in
    JObj [ (lit "id", JNum (Z.of_N (n_id e)));
           (lit "svc_type", JNum (Z.of_N (svc_code (s_type s))));
           (lit "mac", JStr (mac_print (or_else (s_mac s) 0)));
           (lit "address", JStr (aprint (or_else (s_addr s) {| sa_ip := V4 0; sa_port := 0 |})));
           (lit "path", JStr (or_else (s_path s) []));
           (lit "static_svc", JBool (n_static e));
           (lit "last_seen", JNum (n_seen e));
           (lit "active", JBool (n_active e)) ].

  (** The service built in src/svc_table/mod.rs:199-247 *)
  Definition service_of (svc_type : N) (mac : option N) (addr : option saddr) (path : bytes) : option service :=
    let opath := match path with [] => None | _ => Some path end in
    let with_addr (f : N -> saddr -> service) :=
      match mac, addr with Some m, Some a => Some (f m a) | _, _ => None end in
    if N.eqb svc_type 0 then Some svc_control
    else if N.eqb svc_type 1 then with_addr (fun m a => svc_rtsp m a (or_else opath []))
    else if N.eqb svc_type 2 then with_addr (fun m a => svc_locked_rtsp m a opath)
    else if N.eqb svc_type 3 then with_addr svc_unknown_rtsp
    else if N.eqb svc_type 4 then with_addr (fun m a => svc_unsupported_rtsp m a (or_else opath []))
    else if N.eqb svc_type 5 then with_addr svc_http
    else if N.eqb svc_type 6 then with_addr (fun m a => svc_mjpeg m a (or_else opath []))
    else if N.eqb svc_type 7 then with_addr (fun m a => svc_locked_mjpeg m a opath)
    else if N.eqb svc_type 65535 then with_addr svc_tcp
    else None.

  (** src/svc_table/mod.rs:192-274; [now] is the clock *)
  Definition entry_from_json (now : Z) (j : json) : result entry :=
    match j with
    | JObj o =>
        match bind (field_of (lit "svc_type") o) as_u16, bind (field_of (lit "mac") o) as_str,
              bind (field_of (lit "address") o) as_str, bind (field_of (lit "path") o) as_str with
        | Some ty, Some mac, Some addr, Some path =>
            match service_of ty (mac_parse mac) (aparse addr) path with
            | Some s =>
                ROk {| n_id := or_else (bind (field_of (lit "id") o) as_u16) 0;
                       n_svc := s;
                       n_static := or_else (bind (field_of (lit "static_svc") o) as_bool) false;
                       n_enabled := false;
                       n_seen := or_else (bind (field_of (lit "last_seen") o) as_i64) now;
                       n_active := or_else (bind (field_of (lit "active") o) as_bool) true |}
            | None => RErr
            end
        | _, _, _, _ => RErr
        end
    | _ => RErr
    end.

  (** src/svc_table/mod.rs:448-461; the order is the iteration order of the map *)
  Definition table_to_json (t : table) : json :=
    JObj [ (lit "services",
            JArr (map (fun p => entry_to_json (snd p)) (filter (fun p => negb (svc_is_control (n_svc (snd p)))) (t_map t)))) ].

  (** `JsonValue::has_key` *)
  Definition has_key (k : bytes) (j : json) : bool :=
    match j with JObj o => match field_of k o with Some _ => true | None => false end | _ => false end.

  (** The loop of src/svc_table/mod.rs:482-494; [index] counts from 0 *)
  Fixpoint load_entries (now : Z) (t : table) (index : N) (l : list json) : result table :=
    match l with
    | [] => ROk t
    | j :: l' =>
        match entry_from_json now j with
        | ROk e =>
            let e' := if has_key (lit "id") j then e
                      else {| n_id := u16 (index + 1); n_svc := n_svc e; n_static := n_static e;
                              n_enabled := n_enabled e; n_seen := n_seen e; n_active := n_active e |} in
            match add_element t e' with
            | ROk (_, t') => load_entries now t' (index + 1) l'
            | RErr => RErr
            | RPanic => RPanic
            end
        | RErr => RErr
        | RPanic => RPanic
        end
    end.

  (** src/svc_table/mod.rs:463-497 *)
  Definition table_from_json (now : Z) (j : json) : result table :=
    match j with
    | JObj o => match field_of (lit "services") o with
                | Some (JArr l) => load_entries now (table_new now) 0 l
                | _ => RErr
                end
    | _ => RErr
    end.
End Address.
