(** Properties C30, C39 and C40: the configuration, its files, and the tables that are handed out. A
    configuration owns a growing list of tables: a reset adds a new one, references to the old ones stay. *)
From Coq Require Import NArith ZArith List Bool.
From Verif.Model Require Import Bytes Service Alist SvcTable TableJson Config Client.
From Verif.Spec Require Import TableSpec ClientSpec ConfigSpec.
From Verif.Proofs Require Import TableCases ConfigProofs ConfigCases TableRefPf.
Import ListNotations.
Local Open Scope N_scope.
Local Open Scope list_scope.

(** C30 is false: the table captured by a connection is not the one that a reset installs. The connection
    never sends an update again, whatever scans and resets follow. *)
Theorem C30_refuted :
  exists (hash : ident -> N) (c : config) (t t2 : table) (i : identity) (es : list kev) (k : conn) (h : list cobs) (id : N),
    current c = Some t /\ connection 0 i (view_of t) (view_of t) es = (k, h) /\ k_result k = None /\ registered h = true /\
    current (fst (cfg_reset c)) = Some t2 /\ shown t2 id <> shown t id /\
    forall l : list (list cop * kev),
      (forall os e, In (os, e) l -> reads (cfg_run hash (fst (cfg_reset c)) os) (get_service_table c) e) ->
      existsb is_update (snd (conn_run k (map snd l))) = false.
Proof. exact reset_refuted. Qed.
Print Assumptions C30_refuted.

(** The reason, for every configuration: what a reference obtained before a reset shows never changes. *)
Theorem C30_frozen_refuted :
  forall (hash : ident -> N) (c : config) (t : table) (os : list cop),
    current c = Some t -> cell (cfg_run hash (fst (cfg_reset c)) os) (get_service_table c) = Some t.
Proof. exact captured_after_reset. Qed.
Print Assumptions C30_frozen_refuted.

(** What holds: a reference is the one that a new connection gets exactly if there was no reset since, and until then it shows the
    current table. *)
Theorem C30_current_partial :
  forall (hash : ident -> N) (c : config) (t : table) (os : list cop),
    current c = Some t ->
    (get_service_table (cfg_run hash c os) = get_service_table c <-> ~ In CReset os) /\
    (~ In CReset os -> cell (cfg_run hash c os) (get_service_table c) = current (cfg_run hash c os)) /\
    current (cfg_run hash c os) <> None.
Proof. exact captured_current. Qed.
Print Assumptions C30_current_partial.
Example C30_current_case :
  let c2 := cfg_run hash0 c0 [CScan [(5%Z, cam)] 6%Z] in let c3 := cfg_run hash0 c2 [CReset; CScan [(5%Z, cam)] 6%Z] in
  current c0 <> None /\ current c2 <> current c0 /\ cell c2 (get_service_table c0) = current c2 /\
  current (cfg_run hash0 c2 [CReset]) <> current c2 /\ get_service_table c3 <> get_service_table c2 /\ cell c3 (get_service_table c0) = current c2.
Proof. repeat split; vm_compute; congruence. Qed.

(** C39: a client with a skeleton file (the command line always gives it one) that could write it at its
    first start keeps the identity in all later starts, whatever writes are torn or lost. *)
Theorem C39_skeleton_partial :
  forall (hash : ident -> N) (aprint : saddr -> bytes) (aparse : bytes -> option saddr)
         (uprint : N -> bytes) (uparse : bytes -> option N),
    (forall u, uparse (uprint u) = Some u) ->
    forall (flash : bool) (fresh : N * N) (now : Z) (stop : bool) (services : list (Z * service)) (w : wres) (es : list wevent),
      Forall (eq fresh) (snd (world_run hash aprint aparse uprint uparse true flash blank
                                (WStart fresh now Wrote stop services w :: es))).
Proof. exact skeleton_keeps_identity. Qed.
Print Assumptions C39_skeleton_partial.

(** Without torn writes of the configuration file, with or without a skeleton file, all successful starts
    have the same identity. *)
Theorem C39_untorn_partial :
  forall (hash : ident -> N) (aprint : saddr -> bytes) (aparse : bytes -> option saddr)
         (uprint : N -> bytes) (uparse : bytes -> option N),
    (forall u, uparse (uprint u) = Some u) ->
    forall (use_skeleton flash : bool) (es : list wevent),
      Forall (good_event aprint aparse) es -> Forall untorn es ->
      forall a b, In a (snd (world_run hash aprint aparse uprint uparse use_skeleton flash blank es)) ->
                  In b (snd (world_run hash aprint aparse uprint uparse use_skeleton flash blank es)) -> a = b.
Proof. exact untorn_identity. Qed.
Print Assumptions C39_untorn_partial.

(** Without a skeleton file a crash in the middle of a save gives a new identity. *)
Theorem C39_refuted :
  exists (hash : ident -> N) (aprint : saddr -> bytes) (aparse : bytes -> option saddr)
         (uprint : N -> bytes) (uparse : bytes -> option N) (es : list wevent) (a b : N * N),
    (forall u, uparse (uprint u) = Some u) /\ (forall x, aparse (aprint x) = Some x) /\
    Forall (good_event aprint aparse) es /\
    snd (world_run hash aprint aparse uprint uparse false false blank es) = [a; b] /\ a <> b.
Proof. exact crash_refuted. Qed.
Print Assumptions C39_refuted.

(** A history with a torn write, with the skeleton file: both starts use (1, 2). *)
Example C39_case :
  snd (world_run hash0 enc dec one unone true false blank
         [WStart (1, 2) 0 Wrote false [] Wrote; WScan [(5%Z, cam)] 6 Torn; WKill; WStart (3, 4) 7 Wrote false [] Wrote])
  = [(1, 2); (1, 2)].
Proof. vm_compute. reflexivity. Qed.

(** C40: a scan writes unless nothing changed during it. The changes are counted step by step; see
    [C40_wasted_refuted]. *)
Theorem C40_policy_partial :
  forall (aprint : saddr -> bytes) (aparse : bytes -> option saddr) (hash : ident -> N)
         (c : config) (l : list (Z * service)) (now : Z) (c' : config) (d : option pconfig) (t : table),
    good_config aprint aparse c -> good_additions aprint aparse l -> current c = Some t ->
    stored_changes hash t (scan_ops l now) < 2 ^ 32 -> shown_changes hash t (scan_ops l now) < 2 ^ 32 ->
    cfg_update hash c l now = ROk (c', d) ->
    exists t2, current c' = Some t2 /\ tbl_run hash t (scan_ops l now) = ROk t2 /\
      (d = None <-> stored_changes hash t (scan_ops l now) = 0 /\
                    (g_flash c = true \/ shown_changes hash t (scan_ops l now) = 0)) /\
      (forall p, d = Some p ->
         p = {| p_uuid := g_uuid c; p_passwd := g_passwd c; p_version := g_version c + 1; p_table := t2 |}) /\
      g_version c' = (match d with Some _ => g_version c + 1 | None => g_version c end).
Proof. exact scan_written. Qed.
Print Assumptions C40_policy_partial.

(** A reset always writes, with the next version and the initial table. *)
Theorem C40_reset :
  forall (c : config) (t : table), current c = Some t ->
    let '(c', p) := cfg_reset c in
    p = {| p_uuid := g_uuid c; p_passwd := g_passwd c; p_version := g_version c + 1; p_table := g_default c |} /\
    current c' = Some (g_default c) /\ g_version c' = g_version c + 1.
Proof. exact reset_written. Qed.
Print Assumptions C40_reset.

(** A device with one identity and two addresses causes a write in every scan though nothing differs
    afterwards. *)
Theorem C40_wasted_refuted :
  exists (hash : ident -> N) (c : config) (l : list (Z * service)) (now : Z) (c' : config) (p : pconfig) (t t' : table),
    current c = Some t /\ cfg_update hash c l now = ROk (c', Some p) /\ current c' = Some t' /\
    (forall id, stored t' id = stored t id /\ shown t' id = shown t id).
Proof. exact wasted_refuted. Qed.
Print Assumptions C40_wasted_refuted.

(** A write that failed is not repeated by later scans: the file stays behind the table. *)
Theorem C40_missed_refuted :
  exists (hash : ident -> N) (aprint : saddr -> bytes) (aparse : bytes -> option saddr)
         (uprint : N -> bytes) (uparse : bytes -> option N) (fresh : N * N) (l : list (Z * service))
         (c : config) (t : table) (p : pconfig),
    (forall u, uparse (uprint u) = Some u) /\ (forall x, aparse (aprint x) = Some x) /\
    let w := fst (world_run hash aprint aparse uprint uparse true false blank
               [WStart fresh 0 Wrote false [] Wrote; WScan l 6 Kept; WScan l 7 Wrote; WScan l 8 Wrote]) in
    w_app w = Some c /\ current c = Some t /\ load_file aparse uparse 9 (w_config w) = ROk p /\
    exists id, stored t id <> None /\ stored (p_table p) id = None.
Proof. exact retry_refuted. Qed.
Print Assumptions C40_missed_refuted.

Example C40_case :
  let d1 := match cfg_update hash0 c0 [(5%Z, cam)] 6 with ROk (_, d) => option_map p_version d | _ => None end in
  let d2 := match cfg_update hash0 c1 [(5%Z, cam)] 6 with ROk (_, Some _) => true | _ => false end in
  d1 = Some 1 /\ d2 = false.
Proof. vm_compute. split; reflexivity. Qed.
