(** Properties C33-C38, C68 and C73: the service table, its JSON form, and MAC addresses. [tbl_run hash t os]
    applies any sequence of additions and refreshes to table [t]; [hash] is any hash function. *)
From Coq Require Import NArith ZArith List Bool String.
From Verif.Model Require Import Bytes Service Alist SvcTable Mac TableJson.
From Verif.Spec Require Import TableSpec.
From Verif.Proofs Require Import TableProofs TablePropsPf TableExpiry TableJsonPf TableCases.
Import ListNotations.
Local Open Scope N_scope.
Local Open Scope list_scope.

(** C33: no operation panics and the table is consistent after every history that adds at most 65535
    distinct service identities. *)
Theorem C33_consistent :
  forall (hash : ident -> N) (now : Z) (os : list top),
    built_ops os -> nlen (identities os) <= 65535 ->
    exists t, tbl_run hash (table_new now) os = ROk t /\ consistent t.
Proof. exact new_run_ok. Qed.
Print Assumptions C33_consistent.

(** The same from any consistent table, for instance a loaded one. *)
Theorem C33_continues :
  forall (hash : ident -> N) (u : list ident) (os : list top) (t : table),
    consistent t -> built_ops os ->
    (forall k id, assigned t k id -> In k u) -> (forall now s, In (now, s) (adds os) -> In (to_ident s) u) ->
    nlen u <= 65536 ->
    exists t', tbl_run hash t os = ROk t' /\ consistent t'.
Proof. exact run_ok_from. Qed.
Print Assumptions C33_continues.

(** Lookups by identity never panic either. *)
Theorem C33_lookup :
  forall (t : table) (k : ident), consistent t -> tbl_get_id t k <> RPanic.
Proof. exact lookup_no_panic. Qed.
Print Assumptions C33_lookup.

(** C73: reading a document whose entries have distinct identities, none of them the control protocol's,
    gives a consistent table. *)
Theorem C73_loaded_partial :
  forall (aparse : bytes -> option saddr) (now : Z) (l : list json) (t : table),
    load_entries aparse now (table_new now) 0 l = ROk t ->
    (forall j e, In j l -> entry_from_json aparse now j = ROk e -> svc_is_control (n_svc e) = false) ->
    (forall i j a b x y, nth_error l i = Some a -> nth_error l j = Some b -> i <> j ->
       entry_from_json aparse now a = ROk x -> entry_from_json aparse now b = ROk y ->
       to_ident (n_svc x) <> to_ident (n_svc y)) ->
    consistent t.
Proof. exact loaded_consistent. Qed.
Print Assumptions C73_loaded_partial.

Definition a9 : saddr := {| sa_ip := V4 9; sa_port := 80 |}.
Definition a8 : saddr := {| sa_ip := V4 8; sa_port := 80 |}.
Definition cam : service := svc_rtsp 1 a9 [47].
Definition cam' : service := svc_rtsp 1 a8 [47].
Definition web : service := svc_http 1 a9.
Definition hash0 : ident -> N := fun _ => 0.

(** A history with colliding hashes. *)
Example C33_case :
  built_ops [TAdd 5 cam; TAddStatic 6 web; TAdd 7 cam'; TRefresh 8] /\
  option_map (fun t => (stored t 0, stored t 1, stored t 2))
    (match tbl_run hash0 (table_new 0) [TAdd 5 cam; TAddStatic 6 web; TAdd 7 cam'; TRefresh 8] with ROk t => Some t | _ => None end)
  = Some (Some svc_control, Some cam', Some web).
Proof. split; [repeat constructor|vm_compute; reflexivity]. Qed.

(** C73, refuted: a document with two entries of the same identity, or with an entry for the control protocol, is
    accepted and gives an inconsistent table. *)
Theorem C73_documents_refuted :
  exists (aparse : bytes -> option saddr) (now : Z) (l1 l2 : list json) (t1 t2 : table),
    table_from_json aparse now (JObj [(lit "services", JArr l1)]) = ROk t1 /\ ~ consistent t1 /\
    table_from_json aparse now (JObj [(lit "services", JArr l2)]) = ROk t2 /\ ~ consistent t2 /\
    (exists id, ilookup (to_ident svc_control) (t_idents t2) = Some id /\ id <> 0).
Proof. exact documents_refuted. Qed.
Print Assumptions C73_documents_refuted.

(** C34 *)
Theorem C34_stable :
  forall (hash : ident -> N) (os : list top) (t t' : table) (k : ident) (id : N),
    consistent t -> built_ops os -> tbl_run hash t os = ROk t' -> assigned t k id ->
    assigned t' k id /\ (forall id', assigned t' k id' -> id' = id) /\ (forall k', assigned t' k' id -> k' = k) /\
    (tbl_get_id t' k = ROk (Some id) \/ tbl_get_id t' k = ROk None).
Proof. exact ids_stable. Qed.
Print Assumptions C34_stable.

(** The identity of a camera does not contain its IP address. *)
Example C34_case : to_ident cam = to_ident cam' /\ cam <> cam'.
Proof. split; [reflexivity|discriminate]. Qed.

(** C34: two services have the same identity exactly if they have the same type, MAC address, port and path; the IP
    address does not matter. The control service is the one of that type. *)
Theorem C34_identity :
  forall s s' : service,
    (svc_is_control s = true <-> s_type s = ControlProtocol) /\
    (to_ident s = to_ident s' <->
    s_type s = s_type s' /\ s_mac s = s_mac s' /\ s_path s = s_path s' /\
    (forall p, (exists a, s_addr s = Some a /\ sa_port a = p) <-> (exists a, s_addr s' = Some a /\ sa_port a = p))).
Proof. exact ident_same. Qed.
Print Assumptions C34_identity.

Example C34_identity_case : to_ident cam = to_ident cam' /\ s_addr cam <> s_addr cam' /\ to_ident cam <> to_ident svc_control.
Proof. split; [reflexivity|]. split; discriminate. Qed.

(** C35: the versions count the changes (modulo 2^32). *)
Theorem C35_counts :
  forall (hash : ident -> N) (os : list top) (t t' : table),
    consistent t -> built_ops os -> tbl_run hash t os = ROk t' ->
    t_version t' = (t_version t + stored_changes hash t os) mod 2 ^ 32 /\
    t_vversion t' = (t_vversion t + shown_changes hash t os) mod 2 ^ 32.
Proof. exact run_versions. Qed.
Print Assumptions C35_counts.

Theorem C35_detects :
  forall (hash : ident -> N) (os : list top) (t t' : table),
    consistent t -> built_ops os -> tbl_run hash t os = ROk t' ->
    (shown_changes hash t os < 2 ^ 32 -> (exists id, shown t id <> shown t' id) -> t_vversion t' <> t_vversion t) /\
    (stored_changes hash t os < 2 ^ 32 -> (exists id, stored t id <> stored t' id) -> t_version t' <> t_version t).
Proof. exact version_detects. Qed.
Print Assumptions C35_detects.

Theorem C35_quiet :
  forall (hash : ident -> N) (os : list top) (t t' : table),
    consistent t -> built_ops os -> tbl_run hash t os = ROk t' ->
    ((forall a b id, In (a, b) (moments hash t os) -> shown a id = shown b id) -> t_vversion t' = t_vversion t) /\
    ((forall a b id, In (a, b) (moments hash t os) -> stored a id = stored b id) -> t_version t' = t_version t).
Proof. exact version_quiet. Qed.
Print Assumptions C35_quiet.

Example C35_case :
  shown_changes hash0 (table_new 0) [TAdd 5 cam; TAdd 7 cam'; TAdd 8 cam'; TRefresh 1300] = 3 /\
  stored_changes hash0 (table_new 0) [TAdd 5 cam; TAdd 7 cam'; TAdd 8 cam'; TRefresh 1300] = 2.
Proof. vm_compute. split; reflexivity. Qed.

(** C36: after a refresh a discovered service is shown iff it was last added 1200 seconds ago or later. *)
Theorem C36_discovered :
  forall (hash : ident -> N) (os : list top) (t t' : table) (now : Z) (k : ident) (id : N) (s : service),
    consistent t -> sane t -> built_ops os -> sane_ops os -> tbl_run hash t os = ROk t' ->
    stored t' id = Some s -> to_ident s = k -> svc_is_control s = false -> static t' id = Some false ->
    shown (tbl_refresh now t') id = Some s <->
    (exists x, last_added k (adds os) (seen t id) = Some x /\ (now - 1200 <= x)%Z).
Proof. exact discovered_expire. Qed.
Print Assumptions C36_discovered.

(** A time of the last 1200 seconds that a file can hold counts as long ago: the sum overflows (with overflow checks it
    panics). *)
Theorem C36_far_refuted :
  forall (t : table) (now : Z) (id : N) (s : service) (x : Z),
    consistent t -> stored t id = Some s -> svc_is_control s = false -> static t id = Some false ->
    seen t id = Some x -> (2 ^ 63 - 1200 <= x < 2 ^ 63)%Z ->
    (shown (tbl_refresh now t) id = Some s <-> (now <= x + 1200 - 2 ^ 64)%Z).
Proof. exact far_shown. Qed.
Print Assumptions C36_far_refuted.
Example C36_far_case :
  match tbl_run hash0 (table_new 0) [TAdd (2 ^ 63 - 1) cam] with
  | ROk t => seen t 1 = Some (2 ^ 63 - 1)%Z /\ static t 1 = Some false /\ stored t 1 = Some cam /\ shown (tbl_refresh 1300 t) 1 = None
  | _ => False
  end.
Proof. vm_compute. auto. Qed.

(** Lookups by ID return exactly the shown services and the control service. *)
Theorem C36_lookup :
  forall (t : table) (id : N) (s : service),
    consistent t -> (tbl_get t id = Some s <-> shown t id = Some s \/ id = 0 /\ s = svc_control).
Proof. exact get_exact. Qed.
Print Assumptions C36_lookup.

(** A static service is shown whatever the time iff it was on before or was added in the history, by
    configuration or by discovery (the property: by configuration). *)
Theorem C36_static_partial :
  forall (hash : ident -> N) (os : list top) (t t' : table) (now : Z) (k : ident) (id : N) (s : service),
    consistent t -> built_ops os -> tbl_run hash t os = ROk t' ->
    stored t' id = Some s -> to_ident s = k -> svc_is_control s = false -> static t' id = Some true ->
    (shown (tbl_refresh now t') id = Some s <-> enabled t id \/ was_added k os).
Proof. exact static_shown. Qed.
Print Assumptions C36_static_partial.

(** A service configured in this run after it had been discovered expires like a discovered one; a static
    service no longer configured is shown forever once a scan finds it. *)
Theorem C36_static_refuted :
  exists (hash : ident -> N) (t : table) (s : service) (t1 t2 : table) (id : N),
    consistent t /\ built s /\
    tbl_run hash (table_new 0) [TAdd 0 s; TAddStatic 0 s; TRefresh 1201] = ROk t1 /\ assigned t1 (to_ident s) id /\
    shown t1 id = None /\
    static t id = Some true /\ ~ enabled t id /\
    tbl_run hash t [TAdd 0 s; TRefresh 1000000] = ROk t2 /\ shown t2 id = Some s.
Proof. exact static_refuted. Qed.
Print Assumptions C36_static_refuted.

Example C36_case :
  let os := [TAdd 5 cam; TAdd 7 web; TAdd 100 cam] in
  option_map (fun t => (shown (tbl_refresh 1300 t) 1, shown (tbl_refresh 1301 t) 1, shown (tbl_refresh 1300 t) 2, static t 1))
    (match tbl_run hash0 (table_new 0) os with ROk t => Some t | _ => None end)
  = Some (Some cam, None, None, Some false).
Proof. vm_compute. reflexivity. Qed.

(** C37 holds for services that are new, static, or currently shown ... *)
Theorem C37_add_partial :
  forall (hash : ident -> N) (t : table) (now : Z) (s : service) (st : bool),
    consistent t -> built s -> svc_is_control s = false ->
    forall (id : N) (t' : table),
      tbl_update hash now t s st true = ROk (id, t') ->
      stored t id = None \/ static t id = Some true \/ shown t id <> None ->
      shown t' id = Some s.
Proof. exact add_visible. Qed.
Print Assumptions C37_add_partial.

(** ... and for all services after the next refresh (a scan ends with one). *)
Theorem C37_refresh_partial :
  forall (hash : ident -> N) (t : table) (now : Z) (s : service) (st : bool) (now' : Z) (os : list top)
         (t1 t' : table) (id : N),
    consistent t -> built s -> svc_is_control s = false -> sane_time now ->
    tbl_update hash now t s st true = ROk (id, t1) ->
    Forall (fun o => match added o with
                     | Some (x, s') => to_ident s' = to_ident s -> sane_time x /\ (now' - 1200 <= x)%Z
                     | None => True
                     end) os ->
    built_ops os -> (now' - 1200 <= now)%Z -> tbl_run hash t1 os = ROk t' ->
    exists s', shown (tbl_refresh now' t') id = Some s' /\ to_ident s' = to_ident s.
Proof. exact add_refresh_visible. Qed.
Print Assumptions C37_refresh_partial.

(** A discovered service that has expired stays hidden when it is added again, also by configuration. *)
Theorem C37_refuted :
  exists (hash : ident -> N) (t : table) (s : service) (now : Z) (t1 t2 : table) (id : N),
    consistent t /\ built s /\
    tbl_add hash now t s = ROk (id, t1) /\ shown t1 id = None /\ tbl_get t1 id = None /\
    tbl_add_static hash now t s = ROk (id, t2) /\ shown t2 id = None.
Proof. exact add_refuted. Qed.
Print Assumptions C37_refuted.

Example C37_case :
  exists t, tbl_run hash0 (table_new 0) [TAdd 5 cam] = ROk t /\ shown t 1 = Some cam /\
    exists t', tbl_update hash0 9 t cam' false true = ROk (1, t') /\ shown t' 1 = Some cam'.
Proof. eexists. split; [vm_compute; reflexivity|]. split; [reflexivity|]. eexists. split; [vm_compute; reflexivity|reflexivity]. Qed.

(** C38, for services without an empty optional path (see the refutation below) and addresses that the
    standard library prints and parses back. *)
Theorem C38_partial :
  forall (aprint : saddr -> bytes) (aparse : bytes -> option saddr) (now : Z) (t : table),
    consistent t ->
    (forall id s, stored t id = Some s -> svc_is_control s = false -> savable aprint aparse s) ->
    (forall id x, seen t id = Some x -> (- 2 ^ 63 <= x < 2 ^ 63)%Z) ->
    exists t', table_from_json aparse now (table_to_json aprint t) = ROk t' /\ consistent t' /\
      (forall id, stored t' id = stored t id /\
         (id <> 0 -> static t' id = static t id /\ active t' id = active t id /\ seen t' id = seen t id /\ ~ enabled t' id)) /\
      (forall id, shown t' id = match static t id with Some true => None | _ => shown t id end).
Proof. exact table_roundtrip. Qed.
Print Assumptions C38_partial.

(** A locked service whose path is the empty string comes back as a service without a path: its identity
    changes. *)
Theorem C38_refuted :
  exists (aprint : saddr -> bytes) (aparse : bytes -> option saddr) (t t' : table) (id : N) (s s' : service),
    (forall a, aparse (aprint a) = Some a) /\ consistent t /\
    table_from_json aparse 0 (table_to_json aprint t) = ROk t' /\
    stored t id = Some s /\ stored t' id = Some s' /\ to_ident s' <> to_ident s.
Proof. exact json_refuted. Qed.
Print Assumptions C38_refuted.

Example C38_case :
  let ap := fun _ : saddr => [49] in let pa := fun _ : bytes => Some a9 in
  exists t t', tbl_run hash0 (table_new 0) [TAdd 5 cam; TAddStatic 6 web; TRefresh 1300] = ROk t /\
    table_from_json pa 9 (table_to_json ap t) = ROk t' /\
    (forall id s, stored t id = Some s -> svc_is_control s = false -> savable ap pa s) /\
    stored t' 1 = Some cam /\ stored t' 2 = Some web /\ shown t 1 = None /\ shown t 2 = Some web /\ shown t' 2 = None.
Proof.
  cbv zeta. eexists. eexists. split; [vm_compute; reflexivity|]. split; [vm_compute; reflexivity|]. split.
  - intros id s. unfold stored. cbn [t_map alookup].
    repeat (destruct (N.eqb id _); [intros [= <-] _; repeat split; try discriminate; intros m [= <-]; reflexivity || (cbn; discriminate)|]).
    discriminate.
  - repeat split; reflexivity.
Qed.

(** C68 *)
Theorem C68_roundtrip :
  forall m : N, m < 2 ^ 48 -> mac_parse (mac_print m) = Some m.
Proof. exact mac_roundtrip. Qed.
Print Assumptions C68_roundtrip.

Theorem C68_range :
  forall (s : bytes) (m : N), mac_parse s = Some m -> m < 2 ^ 48.
Proof. exact mac_parse_range. Qed.
Print Assumptions C68_range.

Example C68_case : mac_print 1108152157446 = lit "01:02:03:04:05:06" /\ mac_parse (lit "1:+2:3:4:FF:06") = Some 1108152221446 /\
  mac_parse (lit "1:2:3:4:5") = None /\ mac_parse (lit "1:2:3:4:5:100") = None.
Proof. vm_compute. repeat split. Qed.
