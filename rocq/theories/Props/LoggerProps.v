(** C66, C67, C80: log files. *)
From Coq Require Import String NArith List Bool Lia.
From Verif.Model Require Import Bytes Alist Logger.
From Verif.Spec Require Import LoggerSpec.
From Verif.Proofs Require Import LoggerFacts LoggerRun.
Import ListNotations.
Local Open Scope N_scope.

(** C66: after any calls, the backups and the log file are the end of all that was there or logged, with everything recent up to the
    size limit; no other files are touched; every file is within the limit, a single line or as it was at the start. *)
Theorem C66_run : forall io, healthy io -> forall ovf f0 limit n cs, 1 <= n -> n < 2 ^ 64 ->
  exists l0 l, logger_new io f0 limit n = LOk l0 /\ log_all ovf io cs l0 = LOk l /\
    let all := view n f0 ++ text (logged INFO cs) in
    suffix (view n (lg_files l)) all /\
    (forall recent, suffix recent all -> nlen recent <= limit -> suffix recent (view n (lg_files l))) /\
    (forall k, k <> CUR -> ~ (bak 1 <= k <= bak n) -> alookup k (lg_files l) = alookup k f0) /\
    (forall k c, alookup k (lg_files l) = Some c -> sized limit (logged INFO cs) f0 c) /\
    lg_ops l <= 1 + (2 * n + 1) * nlen (logged INFO cs).
Proof. exact log_run. Qed.
Print Assumptions C66_run.
(** C66: a rotation moves every file up by one; only the last backup can be lost. *)
Theorem C66_rotate : forall io, healthy io -> forall ovf l, 1 <= lg_rotations l -> lg_rotations l < 2 ^ 64 -> alookup CUR (lg_files l) <> None ->
  exists l', rotate ovf io l = LOk l' /\ same_config l l' /\ lg_written l' = 0 /\ suffix (view (lg_rotations l) (lg_files l')) (view (lg_rotations l) (lg_files l)) /\
    (lg_ops l' <= lg_ops l + 2 * lg_rotations l) /\ forall k, alookup k (lg_files l') = rotated (lg_rotations l) (lg_files l) k.
Proof. exact rotate_healthy. Qed.
Print Assumptions C66_rotate.
(** C66: lines below the level change nothing. *)
Theorem C66_level : forall io ovf e l, sev_code (en_sev e) < sev_code (lg_level l) -> log ovf io e l = LOk l.
Proof. exact quiet. Qed.
Print Assumptions C66_level.

Definition ex_entry (m : bytes) : entry := {| en_time := lit "2020-01-02 03:04:05"%string; en_sev := WARN; en_file := lit "a.rs"%string; en_line := 17; en_msg := m |}.
Example C66_line : log_line (ex_entry (lit "hello"%string)) = lit "2020-01-02 03:04:05 WARNING [a.rs:17] hello"%string ++ [10].
Proof. vm_compute. reflexivity. Qed.
Example C66_case :
  match logger_new (fun _ => None) [(CUR, [1; 2]); (bak 2, [9])] 100 2 with
  | LOk l0 => match log_all true (fun _ => None) [CLog (ex_entry [65]); CLevel ERROR; CLog (ex_entry [66]); CLevel DEBUG; CLog (ex_entry [67]); CLog (ex_entry [68])] l0 with
              | LOk l => alookup CUR (lg_files l) = Some (log_line (ex_entry [68])) /\ alookup (bak 1) (lg_files l) = Some ([1; 2] ++ log_line (ex_entry [65]) ++ log_line (ex_entry [67]))
                         /\ alookup (bak 2) (lg_files l) = Some [9]
              | _ => False
              end
  | _ => False
  end.
Proof. vm_compute. auto. Qed.

(** C67 does not hold for a rotation count of zero, which the command line accepts: with overflow checks the first line that does not fit
    panics; without them it takes 2^64 - 1 file system calls, more than can ever be made. *)
Theorem C67_zero_refuted : forall io e l, sev_code (lg_level l) <= sev_code (en_sev e) -> ~ fits (log_line e) l -> lg_rotations l = 0 ->
  log true io e l = LPanic l /\ forall l', log false io e l = LOk l' -> lg_ops l + (2 ^ 64 - 1) <= lg_ops l'.
Proof. exact no_rotations. Qed.
Print Assumptions C67_zero_refuted.
Example C67_case : match logger_new (fun _ => None) [] 10 0 with LOk l => ~ fits (log_line (ex_entry [])) l /\ lg_rotations l = 0 | _ => False end.
Proof. vm_compute. split; [intros H; apply H; reflexivity|reflexivity]. Qed.
(** C67: all other counts work (C66_run has the whole statement). *)
Theorem C67_partial : forall io, healthy io -> forall ovf f0 limit n cs, 1 <= n -> n < 2 ^ 64 ->
  exists l0 l, logger_new io f0 limit n = LOk l0 /\ log_all ovf io cs l0 = LOk l.
Proof.
  exact (fun io IO ovf f0 limit n cs N1 Hn => match log_run io IO ovf f0 limit n cs N1 Hn with ex_intro _ l0 (ex_intro _ l (conj A (conj B _))) => ex_intro _ l0 (ex_intro _ l (conj A B)) end).
Qed.
Print Assumptions C67_partial.

(** Opening the log fails if and only if the file cannot be opened; what it holds is kept and counted. *)
Theorem C80_open : forall io f limit n, match logger_new io f limit n with
  | LOk l => io 0 = None /\ lg_level l = INFO /\ lg_limit l = limit /\ lg_rotations l = n /\ lg_written l = nlen (content CUR f) /\
      alookup CUR (lg_files l) = Some (content CUR f) /\ forall k, k <> CUR -> alookup k (lg_files l) = alookup k f
  | LErr l => io 0 <> None /\ lg_files l = f
  | LPanic _ => False
  end.
Proof. exact opened. Qed.
Print Assumptions C80_open.
Example C80_open_case : (exists l, logger_new (fun _ => None) [(CUR, [1; 2])] 10 0 = LOk l /\ lg_written l = 2) /\
  exists l, logger_new (fun _ => Some 0) [(CUR, [1; 2])] 10 0 = LErr l.
Proof. split; eexists; [split; reflexivity|reflexivity]. Qed.

(** C80 does not hold: a failing write panics, and so does the rotation of a log file that somebody else has removed. *)
Theorem C80_write_refuted : forall io ovf e l, sev_code (lg_level l) <= sev_code (en_sev e) -> fits (log_line e) l -> io (lg_ops l) <> None ->
  exists l', log ovf io e l = LPanic l'.
Proof. exact write_failure. Qed.
Print Assumptions C80_write_refuted.
Theorem C80_removed_refuted : forall io ovf e l, sev_code (lg_level l) <= sev_code (en_sev e) -> ~ fits (log_line e) l -> 1 <= lg_rotations l -> lg_rotations l < 2 ^ 64 ->
  alookup CUR (lg_files l) = None -> exists l', log ovf io e l = LPanic l'.
Proof. exact removed_failure. Qed.
Print Assumptions C80_removed_refuted.
(** C80: whatever fails at whatever point, the log still is the end of what was logged; the last line may be cut off. *)
Theorem C80_loss_partial : forall io ovf e l, let n := lg_rotations l in 1 <= n -> n < 2 ^ 64 ->
  exists p, prefix p (log_line e) /\ suffix (view n (lg_files (after (log ovf io e l)))) (view n (lg_files l) ++ p).
Proof. exact log_loss. Qed.
Print Assumptions C80_loss_partial.
Example C80_case :
  match logger_new (fun _ => None) [] 1000 1 with
  | LOk l => match log false (fun _ => Some 4) (ex_entry []) l with LPanic l' => lg_files l' = [(CUR, [50; 48; 50; 48])] | _ => False end
  | _ => False
  end.
Proof. vm_compute. reflexivity. Qed.
