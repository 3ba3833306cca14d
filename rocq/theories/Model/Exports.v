(** The C interface: src/exports.

    Memory is flat: a byte for every address and the list of the allocated blocks (address, size). Accesses outside of a block,
    misaligned accesses and wrong deallocations are undefined behaviour ([UB]). An address is below 2^64; null is zero. The
    allocator is a function of the environment. Numbers in memory are written and read in the same order of bytes, here
    the most significant byte first. *)
From Coq Require Import String NArith List Bool.
From Verif.Model Require Import Bytes Utf8 Service SvcTable Control Logger MainTask.
Import ListNotations.
Local Open Scope N_scope.

Record mem := { m_byte : N -> N; m_blocks : list (N * N) }.
Inductive out (A : Type) : Type := Val (a : A) (m : mem) | Panics | UB.
Arguments Val {A} _ _.
Arguments Panics {A}.
Arguments UB {A}.
Definition obind {A B} (x : out A) (f : A -> mem -> out B) : out B :=
  match x with Val a m => f a m | Panics => Panics | UB => UB end.

(** [n] bytes at [a] are inside of one block *)
Definition accessible (m : mem) (a n : N) : bool :=
  existsb (fun b => (fst b <=? a) && (a + n <=? fst b + snd b)) (m_blocks m).
Definition load (m : mem) (a n : N) : bytes := map (fun i => m_byte m (a + N.of_nat i)) (seq 0 (N.to_nat n)).
Definition store (a : N) (d : bytes) (m : mem) : mem :=
  {| m_byte := fun x => if (a <=? x) && (x <? a + nlen d) then nth (N.to_nat (x - a)) d 0 else m_byte m x; m_blocks := m_blocks m |}.
Definition read_mem (a n : N) (m : mem) : out bytes := if accessible m a n then Val (load m a n) m else UB.
Definition write_mem (a : N) (d : bytes) (m : mem) : out unit := if accessible m a (nlen d) then Val tt (store a d m) else UB.

Definition ISIZE_MAX : N := 2 ^ 63 - 1.
Definition USIZE : N := 2 ^ 64.
(** `size_of::<Layout>()`: a size and an alignment *)
Definition LAYOUT : N := 16.

Section Alloc.
  (** Overflow checks *)
  Variable ovf : bool.
  (** `std::alloc::alloc`: the address of a new block of the given size, or zero *)
  Variable fresh : mem -> N -> N.

  Definition alloc (size : N) (m : mem) : N * mem :=
    let a := fresh m size in
    (a, if a =? 0 then m else {| m_byte := m_byte m; m_blocks := (a, size) :: m_blocks m |}).
  (** mem.rs:20-30; the size of a layout must not exceed `isize::MAX` *)
  Definition ac_malloc (size : N) (m : mem) : out N :=
    let total := LAYOUT + size in
    if ovf && (USIZE <=? total) then Panics
    else
      let total := total mod USIZE in
      if ISIZE_MAX <? total then UB
      else
        let '(block, m) := alloc total m in
        obind (write_mem block (to_be 8 total ++ to_be 8 1) m) (fun _ m => Val (block + LAYOUT) m).
End Alloc.

(** The block must have been allocated with the same layout. *)
Fixpoint remove_block (b : N * N) (l : list (N * N)) : option (list (N * N)) :=
  match l with
  | [] => None
  | x :: r => if (fst b =? fst x) && (snd b =? snd x) then Some r else option_map (cons x) (remove_block b r)
  end.
(** mem.rs:32-42 *)
Definition ac_free (p : N) (m : mem) : out unit :=
  if p <? LAYOUT then UB
  else
    let block := p - LAYOUT in
    obind (read_mem block LAYOUT m) (fun h m =>
      if of_be (skipn 8 h) =? 1
      then match remove_block (block, of_be (firstn 8 h)) (m_blocks m) with
           | Some l => Val tt {| m_byte := m_byte m; m_blocks := l |}
           | None => UB
           end
      else UB).

(** `CStr::from_ptr`: the bytes up to the first zero. All of them must be in one block. [n] is the number of bytes to the end
    of the address space. *)
Fixpoint c_string (n : nat) (a : N) (m : mem) : option bytes :=
  match n with
  | O => None
  | S n' => if m_byte m a =? 0 then Some [] else option_map (cons (m_byte m a)) (c_string n' (a + 1) m)
  end.
(** The end of the block an address is in *)
Fixpoint block_end (a : N) (l : list (N * N)) : N :=
  match l with
  | [] => a
  | (b, n) :: r => if (b <=? a) && (a <? b + n) then b + n else block_end a r
  end.
Definition read_cstr (a : N) (m : mem) : out bytes :=
  match c_string (N.to_nat (block_end a (m_blocks m) - a)) a m with Some s => Val s m | None => UB end.

(** ** Custom storage: src/exports/storage/custom.rs *)

(** custom.rs:208-217: a path is read, copied and freed; [None] if it is not UTF-8 *)
Definition take_string (p : N) (m : mem) : out (option bytes) :=
  obind (read_cstr p m) (fun s m => obind (ac_free p m) (fun _ m => Val (if utf8_valid s then Some s else None) m)).
Fixpoint take_strings (ps : list N) (m : mem) : out (list (option bytes)) :=
  match ps with
  | [] => Val [] m
  | p :: r => obind (take_string p m) (fun s m => obind (take_strings r m) (fun l m => Val (s :: l) m))
  end.
(** custom.rs:221-227: the first error, or all paths *)
Fixpoint all_some {A} (l : list (option A)) : option (list A) :=
  match l with
  | [] => Some []
  | Some x :: r => option_map (cons x) (all_some r)
  | None :: _ => None
  end.
(** `slice::from_raw_parts`: the address is not null, aligned, and all elements are in one block *)
Definition pointers (p len : N) (m : mem) : out (list N) :=
  if (p =? 0) || negb (p mod 8 =? 0) || (ISIZE_MAX <? 8 * len) then UB
  else if len =? 0 then Val [] m
  else obind (read_mem p (8 * len) m) (fun d m =>
         Val (map (fun i => of_be (firstn 8 (skipn (8 * i) d))) (seq 0 (N.to_nat len))) m).
(** custom.rs:195-228; the vector can be allocated; the callback returned [code] and set [p] and [len], which are zero before. The result is [inr] for an
    error. *)
Definition load_paths (code p len : N) (m : mem) : out (list bytes + N) :=
  if negb (code =? 0) then Val (inr code) m
  else obind (pointers p len m) (fun ps m =>
         obind (take_strings ps m) (fun l m =>
           obind (ac_free p m) (fun _ m =>
             Val (match all_some l with Some r => inl r | None => inr 0 end) m))).
(** custom.rs:103-147; [parse] is the parser of JSON and of the configuration ([None]: an error), [create] makes a new
    configuration *)
Definition load_config {C} (parse : bytes -> option C) (create : C) (code p : N) (m : mem) : out (C + N) :=
  if negb (code =? 0) then Val (inr code) m
  else if p =? 0 then Val (inl create) m
  else obind (read_cstr p m) (fun s m =>
         let c := if utf8_valid s then parse s else None in
         obind (ac_free p m) (fun _ m => Val (match c with Some c => inl c | None => inr 0 end) m)).

(** ** Service table: src/exports/svc_table.rs *)

(** svc_table.rs:53-61 *)
Record native := { nv_id : N; nv_type : N; nv_mac : N; nv_ip : ip; nv_port : N; nv_path : option bytes }.
(** `CString::new` fails if there is a zero byte *)
Definition has_zero (s : bytes) : bool := existsb (N.eqb 0) s.
(** svc_table.rs:63-80; [None]: a panic *)
Definition native_service (id : N) (s : service) : option native :=
  match s_path s with
  | Some p => if has_zero p then None else
      match s_mac s, s_addr s with
      | Some mac, Some a => Some {| nv_id := id; nv_type := svc_code (s_type s); nv_mac := mac; nv_ip := sa_ip a; nv_port := sa_port a; nv_path := Some p |}
      | _, _ => None
      end
  | None =>
      match s_mac s, s_addr s with
      | Some mac, Some a => Some {| nv_id := id; nv_type := svc_code (s_type s); nv_mac := mac; nv_ip := sa_ip a; nv_port := sa_port a; nv_path := None |}
      | _, _ => None
      end
  end.
(** svc_table.rs:33-51 *)
Definition native_table (l : list (N * service)) : option (list native) :=
  all_some (map (fun p => native_service (fst p) (snd p)) (filter (fun p => negb (svc_is_control (snd p))) l)).
(** src/client.rs:379-392 and src/exports/mod.rs:238-246 *)
Definition get_service_table (t : table) : option (list native) :=
  native_table (filter (fun p => negb (svc_is_control (snd p))) (tbl_visible t)).
(** svc_table.rs:96-105; [None]: a panic *)
Definition get_service (l : list native) (index : N) : option native := nth_error l (N.to_nat index).
(** svc_table.rs:119-162: what is written to the buffer of the caller, and the version *)
Definition mac_buffer (v : native) : bytes := to_be 6 (nv_mac v).
Definition ip_buffer (v : native) : bytes := match nv_ip v with V4 n => to_be 4 n | V6 n => to_be 16 n end.
Definition native_version (v : native) : N := ip_version (nv_ip v).

(** ** The client: src/exports/mod.rs *)

(** mod.rs:115-119, 153-180: what a start does: run the task or nothing *)
Record nclient := { nc_task : bool; nc_runs : N }.
Definition start_client (c : nclient) : nclient * bool :=
  if nc_task c then ({| nc_task := false; nc_runs := nc_runs c + 1 |}, true) else (c, false).
(** mod.rs:58-65 *)
Definition state_int (s : cstate) : N := match s with Disconnected => 0 | Connected => 1 | NotAuthorized => 2 end.

(** ** The logger with a callback: src/exports/logger.rs *)

(** logger.rs:44-48; the calls made, newest first; the lock is poisoned after a panic *)
Record cblog := { cb_level : severity; cb_calls : list (bytes * N * N * bytes); cb_poisoned : bool }.
(** logger.rs:61-80, 101-104; the second part is false if the call panics *)
Definition cb_log (file : bytes) (line : N) (s : severity) (msg : bytes) (c : cblog) : cblog * bool :=
  if cb_poisoned c then (c, false)
  else if sev_num s <? sev_num (cb_level c) then (c, true)
  else if has_zero file || has_zero msg then ({| cb_level := cb_level c; cb_calls := cb_calls c; cb_poisoned := true |}, false)
  else ({| cb_level := cb_level c; cb_calls := (file, line, sev_num s, msg) :: cb_calls c; cb_poisoned := false |}, true).
