(** What the service table promises, in terms of what it stores and shows. *)
From Coq Require Import NArith ZArith List Bool.
From Verif.Model Require Import Bytes Service Alist SvcTable.
Import ListNotations.
Local Open Scope N_scope.

(** Services are built by the constructors only: the control service is unique and every other
    service has an address. *)
Inductive built : service -> Prop :=
| b_control : built svc_control
| b_rtsp m a p : built (svc_rtsp m a p)
| b_locked_rtsp m a p : built (svc_locked_rtsp m a p)
| b_unknown_rtsp m a : built (svc_unknown_rtsp m a)
| b_unsupported_rtsp m a p : built (svc_unsupported_rtsp m a p)
| b_http m a : built (svc_http m a)
| b_mjpeg m a p : built (svc_mjpeg m a p)
| b_locked_mjpeg m a p : built (svc_locked_mjpeg m a p)
| b_tcp m a : built (svc_tcp m a).

(** The service added by an operation, with the time. *)
Definition added (o : top) : option (Z * service) :=
  match o with TAdd now s | TAddStatic now s => Some (now, s) | TRefresh _ => None end.

Definition adds (os : list top) : list (Z * service) :=
  flat_map (fun o => match added o with Some p => [p] | None => [] end) os.

Definition built_ops (os : list top) : Prop := Forall (fun p => built (snd p)) (adds os).

(** The service stored under an ID. *)
Definition stored (t : table) (id : N) : option service := option_map n_svc (alookup id (t_map t)).

(** The service shown under an ID. *)
Definition shown (t : table) (id : N) : option service := alookup id (tbl_visible t).

(** Unique IDs, one ID per identity, ID 0 is the control protocol and nothing else. *)
Record consistent (t : table) : Prop := {
  k_unique : NoDup (map fst (t_map t));
  k_entry : forall id e, alookup id (t_map t) = Some e ->
    n_id e = id /\ id < 2 ^ 16 /\ built (n_svc e) /\ ilookup (to_ident (n_svc e)) (t_idents t) = Some id;
  k_ident : forall k id, ilookup k (t_idents t) = Some id ->
    exists e, alookup id (t_map t) = Some e /\ to_ident (n_svc e) = k;
  k_control : exists e, alookup 0 (t_map t) = Some e /\ n_svc e = svc_control /\ n_static e = true /\ n_enabled e = true;
  k_only_control : forall id s, stored t id = Some s -> svc_is_control s = true -> id = 0;
  k_versions : t_version t < 2 ^ 32 /\ t_vversion t < 2 ^ 32
}.

(** The distinct identities, other than the control protocol, added by a history. *)
Definition identities (os : list top) : list ident :=
  nodup ident_eq_dec (map (fun p => to_ident (snd p)) (filter (fun p => negb (svc_is_control (snd p))) (adds os))).

Definition oservice_eqb (a b : option service) : bool :=
  match a, b with
  | None, None => true
  | Some x, Some y => if service_eq_dec x y then true else false
  | _, _ => false
  end.

(** Number of IDs under which two moments differ (IDs are never removed). *)
Definition differing (f g : N -> option service) (ids : list N) : N :=
  nlen (filter (fun id => negb (oservice_eqb (f id) (g id))) ids).

(** The moments of a history. *)
Fixpoint moments (hash : ident -> N) (t : table) (os : list top) : list (table * table) :=
  match os with
  | [] => []
  | o :: os' =>
      match tbl_step hash t o with
      | ROk t' => (t, t') :: moments hash t' os'
      | _ => []
      end
  end.

Definition total (l : list N) : N := fold_right N.add 0 l.

(** Number of changes of the shown and of the stored services in a history. *)
Definition shown_changes (hash : ident -> N) (t : table) (os : list top) : N :=
  total (map (fun p => differing (shown (fst p)) (shown (snd p)) (map fst (t_map (snd p)))) (moments hash t os)).
Definition stored_changes (hash : ident -> N) (t : table) (os : list top) : N :=
  total (map (fun p => differing (stored (fst p)) (stored (snd p)) (map fst (t_map (snd p)))) (moments hash t os)).

(** The time an identity was last added in a history, [d] if it was not. *)
Fixpoint last_added (k : ident) (l : list (Z * service)) (d : option Z) : option Z :=
  match l with
  | [] => d
  | (now, s) :: l' => last_added k l' (if ident_eq_dec (to_ident s) k then Some now else d)
  end.

(** An identity was added in a history. *)
Definition was_added (k : ident) (os : list top) : Prop := exists now s, In (now, s) (adds os) /\ to_ident s = k.

(** The time the service under an ID was last seen; whether it is marked as static; whether it was
    switched on in this run. *)
Definition seen (t : table) (id : N) : option Z := option_map n_seen (alookup id (t_map t)).
Definition static (t : table) (id : N) : option bool := option_map n_static (alookup id (t_map t)).
Definition enabled (t : table) (id : N) : Prop := option_map n_enabled (alookup id (t_map t)) = Some true.

(** Timestamps for which adding the threshold does not overflow. *)
Definition sane_time (x : Z) : Prop := (- 2 ^ 63 <= x < 2 ^ 63 - 1200)%Z.
Definition sane (t : table) : Prop := forall id x, seen t id = Some x -> sane_time x.
Definition sane_ops (os : list top) : Prop := Forall (fun p => sane_time (fst p)) (adds os).

(** An identity has an ID. *)
Definition assigned (t : table) (k : ident) (id : N) : Prop := exists s, stored t id = Some s /\ to_ident s = k.

(** Services whose JSON form is faithful: a MAC address of 48 bits, an address that the standard
    library prints and parses back, and no empty path where the path is optional. *)
Definition savable (aprint : saddr -> bytes) (aparse : bytes -> option saddr) (s : service) : Prop :=
  (forall m, s_mac s = Some m -> m < 2 ^ 48) /\
  (forall a, s_addr s = Some a -> aparse (aprint a) = Some a) /\
  (s_type s = LockedRTSP \/ s_type s = LockedMJPEG -> s_path s <> Some []).

Definition active (t : table) (id : N) : option bool := option_map n_active (alookup id (t_map t)).
