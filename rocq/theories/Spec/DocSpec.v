(** What a saved configuration says. *)
From Coq Require Import String NArith ZArith List Bool.
From Verif.Model Require Import Bytes Service Alist SvcTable Mac TableJson Config.
Import ListNotations.
Local Open Scope N_scope.
Local Open Scope list_scope.

(** The value of a field (the first one, if a key was repeated). *)
Definition field (k : string) (o : list (bytes * json)) (v : json) : Prop :=
  exists a b, o = a ++ (lit k, v) :: b /\ ~ In (lit k) (map fst a).
Definition is_u16 (v : json) (n : N) : Prop := v = JNum (Z.of_N n) /\ n < 65536.
Definition is_time (v : json) (t : Z) : Prop := v = JNum t /\ (- 2 ^ 63 <= t < 2 ^ 63)%Z.
Definition is_flag (v : json) (b : bool) : Prop := v = JBool b.
(** An optional field: a value that cannot be used is as good as none. *)
Definition optional {A} (k : string) (is : json -> A -> Prop) (d : A) (o : list (bytes * json)) (x : A) : Prop :=
  (exists v, field k o v /\ is v x) \/ ((forall v y, field k o v -> ~ is v y) /\ x = d).

Definition nonempty (p : bytes) : option bytes := match p with [] => None | _ => Some p end.

Section Doc.
  Variable aparse : bytes -> option saddr.
  Variable uparse : bytes -> option N.

  (** The service of a type with given MAC address, address and path *)
  Inductive says : N -> bytes -> bytes -> bytes -> service -> Prop :=
  | y_control m a p : says 0 m a p svc_control
  | y_rtsp m a p m' a' : mac_parse m = Some m' -> aparse a = Some a' -> says 1 m a p (svc_rtsp m' a' p)
  | y_locked_rtsp m a p m' a' : mac_parse m = Some m' -> aparse a = Some a' -> says 2 m a p (svc_locked_rtsp m' a' (nonempty p))
  | y_unknown_rtsp m a p m' a' : mac_parse m = Some m' -> aparse a = Some a' -> says 3 m a p (svc_unknown_rtsp m' a')
  | y_unsupported_rtsp m a p m' a' : mac_parse m = Some m' -> aparse a = Some a' -> says 4 m a p (svc_unsupported_rtsp m' a' p)
  | y_http m a p m' a' : mac_parse m = Some m' -> aparse a = Some a' -> says 5 m a p (svc_http m' a')
  | y_mjpeg m a p m' a' : mac_parse m = Some m' -> aparse a = Some a' -> says 6 m a p (svc_mjpeg m' a' p)
  | y_locked_mjpeg m a p m' a' : mac_parse m = Some m' -> aparse a = Some a' -> says 7 m a p (svc_locked_mjpeg m' a' (nonempty p))
  | y_tcp m a p m' a' : mac_parse m = Some m' -> aparse a = Some a' -> says 65535 m a p (svc_tcp m' a').

  (** An element of the list of services says [e], if it is read at [now]. *)
  Definition saved (now : Z) (j : json) (e : entry) : Prop :=
    exists o v ty m a p, j = JObj o /\ field "svc_type" o v /\ is_u16 v ty /\ field "mac" o (JStr m) /\
      field "address" o (JStr a) /\ field "path" o (JStr p) /\ says ty m a p (n_svc e) /\
      optional "id" is_u16 0 o (n_id e) /\ optional "static_svc" is_flag false o (n_static e) /\ n_enabled e = false /\
      optional "last_seen" is_time now o (n_seen e) /\ optional "active" is_flag true o (n_active e).

  (** The ID it wants: its own, or its position, counted from 1. *)
  Definition wanted (i : N) (j : json) (e : entry) (w : N) : Prop :=
    exists o, j = JObj o /\
      ((exists v, field "id" o v) /\ w = n_id e \/ ~ (exists v, field "id" o v) /\ w = (i + 1) mod 65536).
  (** The first ID that is not taken, from [w] on *)
  Definition next_free (taken : list N) (w id : N) : Prop :=
    exists k, k < 65536 /\ id = (w + k) mod 65536 /\ ~ In id taken /\ forall k', k' < k -> In ((w + k') mod 65536) taken.
  Definition under (id : N) (e : entry) : entry :=
    {| n_id := id; n_svc := n_svc e; n_static := n_static e; n_enabled := n_enabled e; n_seen := n_seen e; n_active := n_active e |}.
  (** The elements [l], the first of them the [i]-th, go to their places beside [acc]. *)
  Inductive placed (now : Z) : N -> list (N * entry) -> list json -> list (N * entry) -> Prop :=
  | pl_nil i acc : placed now i acc [] acc
  | pl_cons i acc j e w id l r : saved now j e -> wanted i j e w -> next_free (map fst acc) w id ->
      placed now (i + 1) (acc ++ [(id, under id e)]) l r -> placed now i acc (j :: l) r.

  Definition services (j : json) (l : list json) : Prop := exists o, j = JObj o /\ field "services" o (JArr l).
  Definition readable (now : Z) (j : json) : Prop := exists e, saved now j e.
  (** A list of services that fits, and one that does not *)
  Definition fitting (now : Z) (j : json) : Prop := exists l, services j l /\ Forall (readable now) l /\ nlen l <= 65535.
  Definition too_many (now : Z) (j : json) : Prop :=
    exists l, services j l /\ Forall (readable now) (firstn (N.to_nat 65536) l) /\ 65536 <= nlen l.

  (** The table of a document read at [now] *)
  Definition control_entry (now : Z) : entry :=
    {| n_id := 0; n_svc := svc_control; n_static := true; n_enabled := true; n_seen := now; n_active := true |}.
  Definition table_of (now : Z) (j : json) (t : table) : Prop :=
    exists l r, services j l /\ placed now 0 [(0, control_entry now)] l r /\
      (forall id, alookup id (t_map t) = alookup id r) /\ t_version t = 0 /\ t_vversion t = 0.

  (** The identity of a document *)
  Definition identity_of (o : list (bytes * json)) (uuid passwd version : N) : Prop :=
    exists u p, field "uuid" o (JStr u) /\ field "passwd" o (JStr p) /\ field "version" o (JNum (Z.of_N version)) /\
      uparse u = Some uuid /\ uparse p = Some passwd.
End Doc.
