(** Vocabulary of the logger properties. *)
From Coq Require Import String NArith List Bool.
From Verif.Model Require Import Bytes Alist Logger.
Import ListNotations.
Local Open Scope N_scope.

(** What the log says: the backups, the oldest one first, and the log file *)
Fixpoint backups (n : nat) (f : files) : bytes :=
  match n with
  | O => []
  | S k => content (bak (N.of_nat n)) f ++ backups k f
  end.
Definition view (n : N) (f : files) : bytes := backups (N.to_nat n) f ++ content CUR f.
Definition suffix (a b : bytes) : Prop := exists p, b = p ++ a.
Definition prefix (a b : bytes) : Prop := exists p, b = a ++ p.
(** The numbers of the severities (src/utils/logger/mod.rs, and `SEVERITY_*` of the C header) *)
Definition sev_code (s : severity) : N := match s with DEBUG => 0 | INFO => 1 | WARN => 2 | ERROR => 3 end.
(** The entries that are logged, given the level at the start *)
Fixpoint logged (level : severity) (cs : list lcall) : list entry :=
  match cs with
  | [] => []
  | CLog e :: r => if sev_code level <=? sev_code (en_sev e) then e :: logged level r else logged level r
  | CLevel s :: r => logged s r
  end.
(** No operation fails. *)
Definition healthy (io : N -> option N) : Prop := forall n, io n = None.
(** The files after a rotation *)
Definition rotated (n : N) (f : files) (k : N) : option bytes :=
  if k =? CUR then Some []
  else if k =? bak 1 then alookup CUR f
  else if (bak 1 <? k) && (k <=? bak n) then
    match alookup (k - 1) f with
    | Some c => Some c
    | None => if k =? bak n then alookup k f else None
    end
  else alookup k f.
Definition after (r : lres) : logger := match r with LOk l | LErr l | LPanic l => l end.
(** The lines of entries *)
Definition text (es : list entry) : bytes := List.concat (map log_line es).
(** What the length of a file may be: within the limit, one line, or the length it had at the start *)
Definition sized (limit : N) (es : list entry) (f0 : files) (c : bytes) : Prop :=
  nlen c <= limit \/ (exists e, In e es /\ c = log_line e) \/ (exists k, alookup k f0 = Some c).
(** A line that needs no rotation *)
Definition fits (d : bytes) (l : logger) : Prop := lg_written l + nlen d <= lg_limit l.
