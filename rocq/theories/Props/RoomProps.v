(** C128: only a full service table can stop the program, whatever the files of the client contain. *)
From Coq Require Import String NArith ZArith List Bool.
From Verif.Model Require Import Bytes Service Alist SvcTable TableJson Config JsonText Start.
From Verif.Spec Require Import JsonSpec StartSpec RoomSpec.
From Verif.Spec Require DocSpec.
From Verif.Proofs Require Import TableCases ConfigCases DocPf StartCases RoomPf.
Import ListNotations.
Local Open Scope N_scope.
Local Open Scope list_scope.

(** If the services listed in the files and the configured ones fit in the table, a start does not panic, and it succeeds
    exactly if the lock and the log can be had, there is a hardware address and the configuration can be saved. *)
Theorem C128_start :
  forall (hash : ident -> N) (aprint : saddr -> bytes) (aparse : bytes -> option saddr) (uprint : N -> bytes) (uparse : bytes -> option N)
         (jparse : bytes -> option json) (ph : paths) (lk : luck) (services : list (Z * service)) (flash : bool) (f : fs) (n : N),
    distinct_paths ph -> n + nlen services <= 65535 ->
    lists_at_most (bind (f (ph_skel ph)) jparse) n -> lists_at_most (bind (f (ph_config ph)) jparse) n ->
    let s := start hash aprint aparse uprint uparse jparse ph lk services flash f in
    snd s <> RPanic /\ ((exists c, snd s = ROk c) <-> may_begin ph lk /\ lk_mac lk = true /\ lk_save lk = FAll) /\
    (forall c, snd s = ROk c -> exists t, g_heap c = [t] /\ g_default c = t /\ sound t /\ size t <= 1 + n + nlen services).
Proof. exact start_room. Qed.
Print Assumptions C128_start.

(** A scan whose services fit neither panics nor fails. *)
Theorem C128_scan :
  forall (hash : ident -> N) (c : config) (t : table) (l : list (Z * service)) (now : Z),
    cell c (g_cur c) = Some t -> sound t -> size t + nlen l <= 65536 ->
    exists c' d t', cfg_update hash c l now = ROk (c', d) /\ cell c' (g_cur c') = Some t' /\ sound t' /\ size t' <= size t + nlen l.
Proof. exact scan_room. Qed.
Print Assumptions C128_scan.

(** A full table panics on the first service it does not know. *)
Theorem C128_full :
  forall (hash : ident -> N) (now : Z) (t : table) (s : service) (static enabled : bool),
    sound t -> size t = 65536 -> ilookup (to_ident s) (t_idents t) = None -> tbl_update hash now t s static enabled = RPanic.
Proof. exact update_full. Qed.
Print Assumptions C128_full.

(** *** Cases: a configuration that lists a service twice (the table is not consistent, C73) *)
Definition twice : json :=
  let e := entry_to_json enc (entry_new 7 3 cam false false) in
  JObj [(lit "uuid", JStr [5]); (lit "passwd", JStr [6]); (lit "version", JNum 4);
        (lit "svc_table", JObj [(lit "services", JArr [e; e])])].
Definition case_files : fs := put (put no_files (lit "config") (jdump twice)) (lit "skel") (lit "{").
Lemma twice_lists : lists_at_most (Some twice) 2.
Proof.
  intros o v l E F (o' & -> & G). injection E as <-. apply field_spec in F, G. vm_compute in F. injection F as <-. vm_compute in G.
  injection G as <-. discriminate.
Qed.
Example C128_case :
  distinct_paths ex_paths /\ may_begin ex_paths ex_luck /\ bind (case_files (ph_skel ex_paths)) jread = None /\
  bind (case_files (ph_config ex_paths)) jread = Some twice /\ lists_at_most (Some twice) 2 /\
  match snd (ex_start ex_paths ex_luck [(8%Z, svc_http 1 a9)] false case_files) with
  | ROk c => g_uuid c = 5 /\ map (fun p => (fst p, n_svc (snd p))) (t_map (g_default c)) = [(0, svc_control); (3, cam); (4, cam); (1, svc_http 1 a9)] /\
      match cfg_update hash0 c [(9%Z, cam); (9%Z, svc_tcp 1 a9)] 10 with ROk (c', Some _) => g_version c' = 5 | _ => False end
  | _ => False
  end.
Proof.
  split; [unfold distinct_paths; repeat (constructor; [vm_compute; intuition discriminate|]); constructor|].
  split; [split; [right; split; reflexivity|left; reflexivity]|]. split; [vm_compute; reflexivity|]. split; [vm_compute; reflexivity|].
  split; [exact twice_lists|]. vm_compute. auto.
Qed.
