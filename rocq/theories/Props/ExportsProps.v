(** C85: memory given to C is freed as it was allocated. C86: what a custom storage loads is read exactly and freed. C87: the
    service table in C is the table of the client. C88: the client runs once, and a logging callback gets every line. *)
From Coq Require Import String NArith ZArith List Bool Lia.
From Verif.Model Require Import Bytes Utf8 Service SvcTable Logger MainTask Exports.
From Verif.Spec Require Import ExportsSpec.
From Verif.Spec Require LoggerSpec.
From Verif.Proofs Require Import ExportsMem ExportsPf.
Import ListNotations.
Local Open Scope N_scope.

(** ** C85 *)

(** A program that frees only what it allocated and writes only there never causes undefined behaviour or a panic, whatever it
    does; at any time the allocated blocks are those of its live allocations (and those that were there before). *)
Theorem C85_partial : forall (ovf : bool) (fresh : mem -> N -> N) (m : mem) (ops : list c_op),
  sane_alloc fresh -> ForallOrdPairs apart (m_blocks m) -> c_legal_run ovf fresh ops {| c_mem := m; c_live := [] |} ->
  exists s, c_run ovf fresh ops {| c_mem := m; c_live := [] |} = Some s /\ m_blocks (c_mem s) = map behind (c_live s) ++ m_blocks m.
Proof.
  intros ovf fresh m ops S A L. destruct (run_sound ovf fresh (m_blocks m) S ops _ (sound_new m A) L) as [s [E V]].
  exists s. split; [exact E|]. exact (cs_blocks _ _ V).
Qed.
Print Assumptions C85_partial.
(** No operation changes the content of another allocation. *)
Theorem C85_content : forall (ovf : bool) (fresh : mem -> N -> N) (base : list (N * N)) (s : c_state) (o : c_op),
  sane_alloc fresh -> c_sound base s -> c_legal fresh o s ->
  exists s', c_step ovf fresh o s = Some s' /\ c_sound base s' /\
    forall x, In x (c_live s) -> In x (c_live s') ->
      (match o with CStore a d => ~ (fst x <= a /\ a + nlen d <= fst x + snd x) | _ => True end) ->
      load (c_mem s') (fst x) (snd x) = load (c_mem s) (fst x) (snd x).
Proof. exact step_sound. Qed.
Print Assumptions C85_content.

(** An allocator: after the last block *)
Definition bump (m : mem) (n : N) : N :=
  let a := fold_right (fun b x => N.max (fst b + snd b) x) 4096 (m_blocks m) in if a + n <=? 2 ^ 64 then a else 0.
Lemma bump_sane : sane_alloc bump.
Proof.
  intros m n. unfold bump. set (a := fold_right _ _ _). destruct (a + n <=? 2 ^ 64) eqn:E; [|now left]. right. apply N.leb_le in E. split; [exact E|].
  assert (H : Forall (fun b => fst b + snd b <= a) (m_blocks m)).
  { unfold a. clear. induction (m_blocks m) as [|b l IH]; [constructor|]. cbn [fold_right]. constructor; [lia|]. eapply Forall_impl; [|exact IH]. cbn. intros x X. lia. }
  eapply Forall_impl; [|exact H]. intros x X. right. exact X.
Qed.
Definition empty : mem := {| m_byte := fun _ => 0; m_blocks := [] |}.
(** An array of one pointer, and the path "/" *)
Definition one_path : list c_op := [CMalloc 8; CMalloc 2; CStore 4112 (to_be 8 4136); CStore 4136 [47; 0]].
Example C85_case : c_legal_run false bump one_path {| c_mem := empty; c_live := [] |} /\
  match c_run false bump (one_path ++ [CFree 4112]) {| c_mem := empty; c_live := [] |} with
  | Some s => c_live s = [(4136, 2)] /\ m_blocks (c_mem s) = [(4120, 18)] /\ load (c_mem s) 4136 2 = [47; 0]
  | None => False
  end.
Proof.
  split; [|vm_compute; auto].
  apply legalb_run_ok. vm_compute. reflexivity.
Qed.

(** Without memory `ac__malloc` does not return null: it writes to it. *)
Theorem C85_null_refuted : forall (ovf : bool) (fresh : mem -> N -> N) (m : mem) (n : N),
  n + 16 < 2 ^ 63 -> fresh m (16 + n) = 0 -> Forall (fun b => fst b <> 0) (m_blocks m) -> ac_malloc ovf fresh n m = UB.
Proof. exact malloc_null. Qed.
Print Assumptions C85_null_refuted.
Example C85_null_case : ac_malloc true (fun _ _ => 0) 8 empty = UB.
Proof. vm_compute. reflexivity. Qed.
(** A size close to the end of the address space wraps around without overflow checks (the release profile): the allocation
    succeeds, and the block is smaller than the header. *)
Theorem C85_overflow_refuted : exists n, n < 2 ^ 64 /\ ac_malloc false bump n empty = UB /\ ac_malloc true bump n empty = Panics /\
  exists k, k < n /\ ac_malloc false bump k empty = UB /\ ac_malloc true bump k empty = UB.
Proof.
  exists (2 ^ 64 - 1). split; [reflexivity|]. split; [vm_compute; reflexivity|]. split; [vm_compute; reflexivity|]. exists (2 ^ 63).
  split; [reflexivity|]. split; vm_compute; reflexivity.
Qed.
Print Assumptions C85_overflow_refuted.
(** Freeing null, or freeing twice, is undefined. *)
Theorem C85_free_refuted : ac_free 0 empty = UB /\
  c_run false bump (one_path ++ [CFree 4112; CFree 4112]) {| c_mem := empty; c_live := [] |} = None.
Proof. vm_compute. auto. Qed.
Print Assumptions C85_free_refuted.

(** ** C86 *)

(** Paths in an aligned array: read in order, exactly, and all memory of the result is freed, and no other. The result is an
    error if and only if one of the paths is not UTF-8. *)
Theorem C86_partial : forall (base : list (N * N)) (s : c_state) (p : N) (ps : list N) (ts : list bytes),
  c_sound base s -> array_at s p ps -> p mod 8 = 0 -> Forall2 (string_at s) ps ts -> NoDup (p :: ps) ->
  exists m, load_paths 0 p (nlen ps) (c_mem s) = Val (if forallb utf8_valid ts then inl ts else inr 0) m /\
            c_sound base {| c_mem := m; c_live := drops (p :: ps) (c_live s) |}.
Proof. exact paths_loaded. Qed.
Print Assumptions C86_partial.
(** A configuration *)
Theorem C86_config : forall (base : list (N * N)) (C : Type) (parse : bytes -> option C) (create : C) (s : c_state) (p : N) (t : bytes),
  c_sound base s -> string_at s p t ->
  exists m, load_config parse create 0 p (c_mem s) =
              Val (match (if utf8_valid t then parse t else None) with Some c => inl c | None => inr 0 end) m /\
            c_sound base {| c_mem := m; c_live := drop p (c_live s) |}.
Proof. exact config_loaded. Qed.
Print Assumptions C86_config.
(** A code other than zero is an error, and nothing is read or freed; no configuration at all is a new one. *)
Theorem C86_code : forall (C : Type) (parse : bytes -> option C) (create : C) (code p len : N) (m : mem), code <> 0 ->
  load_paths code p len m = Val (inr code) m /\ load_config parse create code p m = Val (inr code) m /\
  load_config parse create 0 0 m = Val (inl create) m.
Proof. exact codes. Qed.
Print Assumptions C86_code.
Definition after (ops : list c_op) : c_state :=
  match c_run false bump ops {| c_mem := empty; c_live := [] |} with Some s => s | None => {| c_mem := empty; c_live := [] |} end.
Lemma after_sound : forall (ops : list c_op), legalb_run false bump ops {| c_mem := empty; c_live := [] |} = true ->
  c_run false bump ops {| c_mem := empty; c_live := [] |} = Some (after ops) /\ c_sound [] (after ops).
Proof.
  intros ops L. destruct (run_sound false bump [] bump_sane ops _ (sound_new empty (FOP_nil _)) (legalb_run_ok _ _ _ _ L)) as [s [E V]].
  unfold after. rewrite E. now split.
Qed.
Definition path_state : c_state := after one_path.
Example C86_case : c_sound [] path_state /\ array_at path_state 4112 [4136] /\ 4112 mod 8 = 0 /\
  Forall2 (string_at path_state) [4136] [[47]] /\ NoDup [4112; 4136] /\
  match load_paths 0 4112 1 (c_mem path_state) with Val r m => r = inl [[47]] /\ m_blocks m = [] | _ => False end.
Proof.
  split; [apply after_sound; vm_compute; reflexivity|]. split; [exists 8; split; [vm_compute; auto|]; split; [vm_compute; discriminate|]; split; [vm_compute; reflexivity|]; repeat (constructor; [reflexivity|]); constructor|]. split; [reflexivity|]. split.
  - constructor; [|constructor]. exists 2. split; [vm_compute; auto|]. split; [vm_compute; discriminate|]. split; [vm_compute; reflexivity|]. intros [X|[]]; discriminate X.
  - split; [|vm_compute; auto]. constructor; [intros [X|[]]; discriminate X|]. constructor; [intros []|constructor].
Qed.
(** A callback that has no paths and leaves the pointer as it was (null) causes undefined behaviour. *)
Theorem C86_null_refuted : forall (len : N) (m : mem), load_paths 0 0 len m = UB.
Proof. exact null_paths. Qed.
Print Assumptions C86_null_refuted.
(** `ac__malloc` allocates blocks without alignment: an array that does not happen to be aligned cannot be read. *)
Definition one_path_later : list c_op := [CMalloc 1; CMalloc 8; CMalloc 2; CStore 4129 (to_be 8 4153); CStore 4153 [47; 0]].
Theorem C86_align_refuted : exists fresh ops s p ps ts, sane_alloc fresh /\ c_run false fresh ops {| c_mem := empty; c_live := [] |} = Some s /\
  c_sound [] s /\ array_at s p ps /\ Forall2 (string_at s) ps ts /\ NoDup (p :: ps) /\ load_paths 0 p (nlen ps) (c_mem s) = UB.
Proof.
  destruct (after_sound one_path_later) as [R V]; [vm_compute; reflexivity|].
  exists bump, one_path_later, (after one_path_later), 4129, [4153], [[47]]. split; [exact bump_sane|]. split; [exact R|]. split; [exact V|].
  split; [exists 8; split; [vm_compute; auto|]; split; [vm_compute; discriminate|]; split; [vm_compute; reflexivity|]; repeat (constructor; [reflexivity|]); constructor|]. split.
  - constructor; [|constructor]. exists 2. split; [vm_compute; auto|]. split; [vm_compute; discriminate|]. split; [vm_compute; reflexivity|]. intros [X|[]]; discriminate X.
  - split; [constructor; [intros [X|[]]; discriminate X|]; constructor; [intros []|constructor]|]. vm_compute. reflexivity.
Qed.
Print Assumptions C86_align_refuted.
(** The same pointer twice: freed twice. *)
Theorem C86_twice_refuted : exists ops s p q t, c_run false bump ops {| c_mem := empty; c_live := [] |} = Some s /\
  array_at s p [q; q] /\ string_at s q t /\ p mod 8 = 0 /\ load_paths 0 p 2 (c_mem s) = UB.
Proof.
  set (ops := [CMalloc 16; CMalloc 2; CStore 4112 (to_be 8 4144 ++ to_be 8 4144); CStore 4144 [47; 0]]).
  destruct (after_sound ops) as [R V]; [vm_compute; reflexivity|]. exists ops, (after ops), 4112, 4144, [47]. split; [exact R|]. split; [exists 16; split; [vm_compute; auto|]; split; [vm_compute; discriminate|]; split; [vm_compute; reflexivity|]; repeat (constructor; [reflexivity|]); constructor|]. split.
  - exists 2. split; [vm_compute; auto|]. split; [vm_compute; discriminate|]. split; [vm_compute; reflexivity|]. intros [X|[]]; discriminate X.
  - split; vm_compute; reflexivity.
Qed.
Print Assumptions C86_twice_refuted.

(** ** C87 *)

(** The exported table has the visible services of the client in order, each with its identifier, type, addresses, port and
    path; it cannot be exported if and only if a path has a zero byte. *)
Theorem C87_partial : forall (t : table), Forall (fun p => complete (snd p)) (tbl_visible t) ->
  match get_service_table t with
  | Some vs => Forall2 (fun p v => exported (fst p) (snd p) v) (tbl_visible t) vs
  | None => exists p x, In p (tbl_visible t) /\ s_path (snd p) = Some x /\ In 0 x
  end.
Proof. exact client_table. Qed.
Print Assumptions C87_partial.
Definition cam : service := svc_rtsp 1 {| sa_ip := V4 9; sa_port := 554 |} [47].
Definition bad_cam : service := svc_rtsp 2 {| sa_ip := V4 8; sa_port := 554 |} [47; 0].
Example C87_case :
  let run l := match tbl_run (fun _ => 0) (table_new 0%Z) l with ROk t => Some t | _ => None end in
  match run [TAdd 5%Z cam] with
  | Some t => map fst (tbl_visible t) = [1] /\ Forall (fun p => complete (snd p)) (tbl_visible t) /\
              option_map (map mac_buffer) (get_service_table t) = Some [[0; 0; 0; 0; 0; 1]]
  | None => False
  end /\ option_map get_service_table (run [TAdd 5%Z cam; TAdd 6%Z bad_cam]) = Some None.
Proof. split; [vm_compute; split; [reflexivity|split; [repeat constructor; discriminate|reflexivity]]|vm_compute; reflexivity]. Qed.
Theorem C87_zero_refuted : forall (t : table),
  (exists p x, In p (tbl_visible t) /\ s_path (snd p) = Some x /\ In 0 x) -> get_service_table t = None.
Proof. exact client_table_zero. Qed.
Print Assumptions C87_zero_refuted.
(** What C code can read of a service: an element for each index below the count, a panic for any other; the bytes of the
    addresses are those of the service. *)
Theorem C87_index : forall (l : list native) (i : N), (get_service l i = None <-> nlen l <= i) /\
  (forall v, get_service l i = Some v -> In v l).
Proof. exact index_range. Qed.
Print Assumptions C87_index.
Theorem C87_address : forall (v : native), nv_mac v < 2 ^ 48 -> (match nv_ip v with V4 n => n < 2 ^ 32 | V6 n => n < 2 ^ 128 end) ->
  of_be (mac_buffer v) = nv_mac v /\ length (mac_buffer v) = 6%nat /\
  match native_version v with
  | 4 => length (ip_buffer v) = 4%nat /\ nv_ip v = V4 (of_be (ip_buffer v))
  | 6 => length (ip_buffer v) = 16%nat /\ nv_ip v = V6 (of_be (ip_buffer v))
  | _ => False
  end.
Proof. exact buffers. Qed.
Print Assumptions C87_address.

(** ** C88 *)

Theorem C88_once : forall (n : nat) (c : nclient), nc_task c = true -> starts (S n) c = true :: repeat false n.
Proof. exact starts_once. Qed.
Print Assumptions C88_once.
Theorem C88_runs : forall (n : nat) (c : nclient), nc_task c = true -> nc_runs (after_starts (S n) c) = nc_runs c + 1.
Proof. exact runs_once. Qed.
Print Assumptions C88_runs.
(** include/arrow_client.h:20-22 *)
Theorem C88_states :
  state_int Disconnected = 0 /\ state_int Connected = 1 /\ state_int NotAuthorized = 2 /\
  (forall (a b : cstate), state_int a = state_int b -> a = b).
Proof. repeat split. intros [] [] H; reflexivity || discriminate H. Qed.
Print Assumptions C88_states.
(** Every line of the level or above, in order; no other *)
Theorem C88_partial : forall (ls : list lline) (c : cblog), cb_poisoned c = false ->
  Forall (fun l => ~ In 0 (l_file l) /\ ~ In 0 (l_msg l)) ls ->
  exists c', cb_logs ls c = (c', repeat true (length ls)) /\ cb_poisoned c' = false /\ cb_level c' = cb_level c /\
    rev (cb_calls c') = rev (cb_calls c) ++ map as_call (filter (fun l => LoggerSpec.sev_code (cb_level c) <=? LoggerSpec.sev_code (l_sev l)) ls).
Proof. exact logs_delivered. Qed.
Print Assumptions C88_partial.
Example C88_case : 
  let c := {| cb_level := WARN; cb_calls := []; cb_poisoned := false |} in
  let a := {| l_file := lit "a.rs"; l_num := 7; l_sev := ERROR; l_msg := lit "one" |} in
  let b := {| l_file := lit "a.rs"; l_num := 9; l_sev := INFO; l_msg := lit "two" |} in
  cb_calls (fst (cb_logs [a; b; a] c)) = [as_call a; as_call a] /\ starts 3 {| nc_task := true; nc_runs := 0 |} = [true; false; false].
Proof. vm_compute. auto. Qed.
(** A message with a zero byte (a path that came with a table may have one) panics, and so does every later message. *)
Theorem C88_zero_refuted : forall (l : lline) (ls : list lline) (c : cblog), cb_poisoned c = false ->
  LoggerSpec.sev_code (cb_level c) <= LoggerSpec.sev_code (l_sev l) -> In 0 (l_msg l) ->
  exists c', cb_logs (l :: ls) c = (c', repeat false (length (l :: ls))) /\ cb_calls c' = cb_calls c.
Proof. exact log_zero. Qed.
Print Assumptions C88_zero_refuted.
