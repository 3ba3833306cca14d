(** The loggers other than the file logger (Logger.v): standard error, syslog, none; handles and their levels. *)
From Coq Require Import String NArith List Bool.
From Verif.Model Require Import Bytes Text Logger.
Import ListNotations.
Local Open Scope N_scope.

(** src/utils/logger/stderr.rs:61-66 *)
Definition color (s : severity) : bytes :=
  match s with DEBUG => lit "1;30"%string | INFO => lit "0;37"%string | WARN => lit "0;33"%string | ERROR => lit "0;31"%string end.
(** src/utils/logger/stderr.rs:51-85: the text without the line feed is the one of the file logger *)
Definition line_body (e : entry) : bytes := removelast (log_line e).
Definition stderr_text (pretty : bool) (e : entry) : bytes :=
  if pretty then [27; 91] ++ color (en_sev e) ++ [109] ++ line_body e ++ [27; 91; 109; 10] else log_line e.

(** src/utils/logger/syslog.rs:31-34 and 70-87: priority, format and argument of the call of `syslog` *)
Definition priority (s : severity) : N := match s with DEBUG => 7 | INFO => 6 | WARN => 4 | ERROR => 3 end.
Definition escape_nul (s : bytes) : bytes := flat_map (fun c => if c =? 0 then [92; 48] else [c]) s.
Definition syslog_call (e : entry) : N * bytes * bytes :=
  (priority (en_sev e), lit "%s"%string,
   escape_nul ([91] ++ en_file e ++ [58] ++ print_dec (en_line e) ++ lit "] "%string ++ en_msg e)).

(** src/config.rs:327-335 `LoggerType` and src/utils/logger/mod.rs:153-177 `DummyLogger` *)
Inductive backend := BNone | BStderr (pretty : bool) | BSyslog | BFile.
(** All handles (clones) of one logger, numbered in the order of their creation. Every handle has a level of its own,
    except those of the file logger, which share one ([lh_shared]). *)
Record handles := { lh_backend : backend; lh_levels : list severity; lh_shared : severity }.
Definition shared (b : backend) : bool := match b with BFile => true | _ => false end.
(** The constructors: src/utils/logger/stderr.rs:30-37, syslog.rs:57-67, file.rs:128-157, mod.rs:159-165 *)
Definition first_level (b : backend) : severity := match b with BNone => DEBUG | _ => INFO end.
Definition new_logger (b : backend) : handles := {| lh_backend := b; lh_levels := [first_level b]; lh_shared := first_level b |}.
(** `get_level`, `set_level`, `clone` *)
Definition get_level (l : handles) (h : nat) : severity :=
  if shared (lh_backend l) then lh_shared l else nth h (lh_levels l) INFO.
Definition replace (h : nat) (s : severity) (l : list severity) : list severity := firstn h l ++ match skipn h l with [] => [] | _ :: r => s :: r end.
Definition set_handle (l : handles) (h : nat) (s : severity) : handles :=
  if shared (lh_backend l) then {| lh_backend := lh_backend l; lh_levels := lh_levels l; lh_shared := s |}
  else {| lh_backend := lh_backend l; lh_levels := replace h s (lh_levels l); lh_shared := lh_shared l |}.
Definition clone (l : handles) (h : nat) : handles * nat :=
  ({| lh_backend := lh_backend l; lh_levels := lh_levels l ++ [nth h (lh_levels l) INFO]; lh_shared := lh_shared l |}, List.length (lh_levels l)).
(** A message is written by a handle when its severity is not below the level (`s >= self.level`). *)
Definition writes (l : handles) (h : nat) (e : entry) : bool :=
  match lh_backend l with BNone => false | _ => sev_num (get_level l h) <=? sev_num (en_sev e) end.

(** src/config.rs:432-479 and 312-314: handle 0 is moved into the configuration, its clone 1 into the storage; then `-v` *)
Definition config_logger (b : backend) (verbose : bool) : handles :=
  let '(l, _) := clone (new_logger b) 0 in if verbose then set_handle l 0 DEBUG else l.

(** Later use: src/config.rs:1025-1029 (`get_logger`) and clones of clones *)
Inductive hop := HClone (h : nat) | HLevel (h : nat) (s : severity).
Definition hstep (l : handles) (o : hop) : handles :=
  match o with HClone h => fst (clone l h) | HLevel h s => set_handle l h s end.
