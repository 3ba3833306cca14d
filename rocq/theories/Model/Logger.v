(** The file logger: src/utils/logger/file.rs.

    The names of the files are numbers: 0 is the log file itself, i + 1 is the backup with the suffix ".i". The file system is
    an association list. Every operation on it has a number and may fail; [io] tells which ones do. The lock around the logger
    is left out: calls are not interleaved. *)
From Coq Require Import String NArith List Bool.
From Verif.Model Require Import Bytes Text Alist.
Import ListNotations.
Local Open Scope N_scope.

Definition files := list (N * bytes).
Definition CUR : N := 0.
Definition bak (i : N) : N := i + 1.

(** src/utils/logger/mod.rs:53-61 *)
Inductive severity := DEBUG | INFO | WARN | ERROR.
Definition sev_num (s : severity) : N := match s with DEBUG => 0 | INFO => 1 | WARN => 2 | ERROR => 3 end.
(** file.rs:28-36; the open file is the one at the path, [lg_ops] is the number of operations made *)
Record logger := { lg_level : severity; lg_files : files; lg_written : N; lg_limit : N; lg_rotations : N; lg_ops : N }.
Definition set_files (l : logger) (f : files) : logger :=
  {| lg_level := lg_level l; lg_files := f; lg_written := lg_written l; lg_limit := lg_limit l; lg_rotations := lg_rotations l; lg_ops := lg_ops l |}.
Definition set_written (l : logger) (n : N) : logger :=
  {| lg_level := lg_level l; lg_files := lg_files l; lg_written := n; lg_limit := lg_limit l; lg_rotations := lg_rotations l; lg_ops := lg_ops l |}.
Definition op_done (l : logger) : logger :=
  {| lg_level := lg_level l; lg_files := lg_files l; lg_written := lg_written l; lg_limit := lg_limit l; lg_rotations := lg_rotations l; lg_ops := lg_ops l + 1 |}.

(** What a call leaves behind: success, an error or a panic *)
Inductive lres := LOk (l : logger) | LErr (l : logger) | LPanic (l : logger).
Definition lbind (r : lres) (f : logger -> lres) : lres :=
  match r with LOk l => f l | LErr l => LErr l | LPanic l => LPanic l end.

Section Logger.
  (** Overflow checks *)
  Variable ovf : bool.
  (** The operations that fail; a failing write has written the given number of bytes. *)
  Variable io : N -> option N.

  (** `fs::rename`: an existing target is replaced; it fails if the source does not exist. *)
  Definition rename (from to : N) (l : logger) : lres :=
    match io (lg_ops l), alookup from (lg_files l) with
    | None, Some c => LOk (op_done (set_files l (ainsert to c (aremove from (lg_files l)))))
    | _, _ => LErr (op_done l)
    end.
  (** `File::create` *)
  Definition create (k : N) (l : logger) : lres :=
    match io (lg_ops l) with
    | None => LOk (op_done (set_files l (ainsert k [] (lg_files l))))
    | Some _ => LErr (op_done l)
    end.
  Definition content (k : N) (f : files) : bytes := match alookup k f with Some c => c | None => [] end.
  (** `write_all` and `flush`. If somebody else has deleted the log file, the data goes to the deleted file. Simplification: if they
      have also made a new one, the data goes there. *)
  Definition add_data (data : bytes) (f : files) : files :=
    match alookup CUR f with Some c => ainsert CUR (c ++ data) f | None => f end.
  Definition append (data : bytes) (l : logger) : lres :=
    match io (lg_ops l) with
    | None => LOk (op_done (set_files l (add_data data (lg_files l))))
    | Some n => LErr (op_done (set_files l (add_data (firstn (N.to_nat n) data) (lg_files l))))
    end.
  (** `Path::exists` *)
  Definition exists_file (k : N) (l : logger) : bool := match alookup k (lg_files l) with Some _ => true | None => false end.

  (** Subtraction of `usize` numbers; the arguments of all uses with overflow checks are known not to overflow *)
  Definition usub (a b : N) : N := (a + 2 ^ 64 - b) mod 2 ^ 64.
  (** file.rs:60-71: one round *)
  Definition shift_one (i : N) (l : logger) : lres :=
    let n := lg_rotations l in
    let from := bak (usub (usub n i) 1) in
    let to := bak (usub n i) in
    if exists_file from l then rename from to (op_done l) else LOk (op_done l).
  (** file.rs:59-72; [k] rounds are left *)
  Fixpoint shift (k : nat) (i : N) (l : logger) : lres :=
    match k with
    | O => LOk l
    | S k' => lbind (shift_one i l) (shift k' (i + 1))
    end.
  (** file.rs:57-89 *)
  Definition rotate (l : logger) : lres :=
    let n := lg_rotations l in
    if ovf && (n =? 0) then LPanic l
    else
      lbind (shift (N.to_nat (usub n 1)) 0 l) (fun l =>
      lbind (if 0 <? n then rename CUR (bak 1) l else LOk l) (fun l =>
      lbind (create CUR l) (fun l => LOk (set_written l 0)))).
  (** file.rs:44-55; the sum of lengths is below 2^64 *)
  Definition write (data : bytes) (l : logger) : lres :=
    lbind (if lg_limit l <? lg_written l + nlen data then rotate l else LOk l) (fun l =>
    lbind (append data l) (fun l => LOk (set_written l (lg_written l + nlen data)))).

  (** A call of the logger with the formatted time, the place in the source and the message *)
  Record entry := { en_time : bytes; en_sev : severity; en_file : bytes; en_line : N; en_msg : bytes }.
  (** file.rs:96-101 *)
  Definition sev_name (s : severity) : bytes :=
    match s with DEBUG => lit "DEBUG"%string | INFO => lit "INFO"%string | WARN => lit "WARNING"%string | ERROR => lit "ERROR"%string end.
  (** `{:<7}` *)
  Definition pad7 (s : bytes) : bytes := s ++ repeat 32 (7 - List.length s).
  (** file.rs:104-107 *)
  Definition log_line (e : entry) : bytes :=
    en_time e ++ [32] ++ pad7 (sev_name (en_sev e)) ++ lit " ["%string ++ en_file e ++ [58] ++ print_dec (en_line e) ++ lit "] "%string ++ en_msg e ++ [10].
  (** file.rs:93-110 *)
  Definition log (e : entry) (l : logger) : lres :=
    if sev_num (lg_level l) <=? sev_num (en_sev e) then
      match write (log_line e) l with
      | LErr l => LPanic l
      | r => r
      end
    else LOk l.
  (** file.rs:112-114 *)
  Definition set_level (s : severity) (l : logger) : logger :=
    {| lg_level := s; lg_files := lg_files l; lg_written := lg_written l; lg_limit := lg_limit l; lg_rotations := lg_rotations l; lg_ops := lg_ops l |}.
  (** file.rs:128-157; the length is that of the file, if there is one *)
  Definition logger_new (f : files) (limit rotations : N) : lres :=
    let l := {| lg_level := INFO; lg_files := f; lg_written := nlen (content CUR f); lg_limit := limit; lg_rotations := rotations; lg_ops := 0 |} in
    match io 0 with
    | None => LOk (op_done (set_files l (ainsert CUR (content CUR f) f)))
    | Some _ => LErr (op_done l)
    end.
  (** A run: calls and changes of the level *)
  Inductive lcall := CLog (e : entry) | CLevel (s : severity).
  Fixpoint log_all (cs : list lcall) (l : logger) : lres :=
    match cs with
    | [] => LOk l
    | CLog e :: r => lbind (log e l) (log_all r)
    | CLevel s :: r => log_all r (set_level s l)
    end.
End Logger.
