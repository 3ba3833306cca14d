(** Properties C104 to C106: the text of log messages, syslog calls, and the levels of logger handles. *)
From Coq Require Import String NArith List Bool.
From Verif.Model Require Import Bytes Text Logger Loggers.
From Verif.Spec Require Import LoggersSpec.
From Verif.Spec Require LoggerSpec.
From Verif.Proofs Require Import LoggersPf.
Import ListNotations.
Local Open Scope N_scope.

(** C104: messages without line feeds give one line each. *)
Theorem C104_lines_partial : forall es : list entry, Forall one_line es -> text_lines [] (List.concat (map (stderr_text false) es)) = map line_body es.
Proof. exact lines_of_entries. Qed.
Print Assumptions C104_lines_partial.

(** A message with line feeds can look like any other message: the address in a REDIRECT message of the server is
    written as it is (src/client.rs:94-98). *)
Theorem C104_forged_refuted :
  forall e1 e2 : entry, exists e, en_time e = en_time e1 /\ en_sev e = en_sev e1 /\ en_file e = en_file e1 /\ en_line e = en_line e1 /\
    stderr_text false e = stderr_text false e1 ++ stderr_text false e2.
Proof. exact forged. Qed.
Print Assumptions C104_forged_refuted.

(** The text in full: time, severity, place and message, for any message *)
Theorem C104_text : forall e : entry, stderr_text false e = shape e ++ [10].
Proof. exact shape_exact. Qed.
Print Assumptions C104_text.

Theorem C104_pretty_text : forall e : entry, stderr_text true e = [27] ++ color_code (en_sev e) ++ shape e ++ [27] ++ lit "[m"%string ++ [10].
Proof. exact pretty_exact. Qed.
Print Assumptions C104_pretty_text.

(** The colored text shows the same as the plain one, and its color tells the severity. *)
Theorem C104_pretty : forall e : entry, ~ In 27 (line_body e) -> shown_text false (stderr_text true e) = stderr_text false e.
Proof. exact pretty_shown. Qed.
Print Assumptions C104_pretty.

Theorem C104_color : forall e e' : entry, stderr_text true e = stderr_text true e' -> en_sev e = en_sev e'.
Proof. intros e e' H. eapply color_injective; eauto. Qed.
Print Assumptions C104_color.

Definition e0 : entry := {| en_time := lit "2020-01-02 03:04:05"%string; en_sev := INFO; en_file := lit "a.rs"%string; en_line := 7; en_msg := lit "hi"%string |}.
Example C104_case : one_line e0 /\ ~ In 27 (line_body e0) /\
  stderr_text true e0 = [27] ++ lit "[0;37m2020-01-02 03:04:05 INFO    [a.rs:7] hi"%string ++ [27] ++ lit "[m"%string ++ [10].
Proof. split; [|split]; [unfold one_line; vm_compute; intuition discriminate|vm_compute; intuition discriminate|reflexivity]. Qed.

(** C105: messages never act as format strings of `syslog`, and never end at a NUL character. *)
Theorem C105_syslog :
  forall e : entry,
    snd (fst (syslog_call e)) = lit "%s"%string /\ ~ In 0 (snd (syslog_call e)) /\
    (~ In 0 (en_file e) -> ~ In 0 (en_msg e) ->
     snd (syslog_call e) = lit "["%string ++ en_file e ++ lit ":"%string ++ print_dec (en_line e) ++ lit "] "%string ++ en_msg e).
Proof. exact syslog_shape. Qed.
Print Assumptions C105_syslog.

(** More severe messages have lower priority numbers. *)
Theorem C105_priority : forall e e' : entry,
  LoggerSpec.sev_code (en_sev e) < LoggerSpec.sev_code (en_sev e') -> fst (fst (syslog_call e')) < fst (fst (syslog_call e)).
Proof. intros e e'. unfold syslog_call. cbn [fst]. destruct (en_sev e), (en_sev e'); vm_compute; congruence. Qed.
Print Assumptions C105_priority.

(** The priority and the text in full *)
Theorem C105_text : forall e : entry, fst (fst (syslog_call e)) = syslog_level (en_sev e) /\
  escaped (lit "["%string ++ en_file e ++ lit ":"%string ++ print_dec (en_line e) ++ lit "] "%string ++ en_msg e) (snd (syslog_call e)).
Proof. exact syslog_exact. Qed.
Print Assumptions C105_text.

Example C105_case : syslog_call {| en_time := []; en_sev := WARN; en_file := lit "a.rs"%string; en_line := 7; en_msg := [37; 110; 0] |}
  = (4, lit "%s"%string, lit "[a.rs:7] %n\0"%string).
Proof. reflexivity. Qed.

(** C106: the logger of the configuration and all its clones have the level DEBUG with [-v] and INFO without. *)
Theorem C106_levels_partial :
  forall (b : backend) (v : bool) (os : list hop) (h : nat),
    Forall (fun o => match o with HClone _ => True | _ => False end) os -> In h (descends os 2 [0%nat]) ->
    get_level (fold_left hstep os (config_logger b v)) h = if v then DEBUG else first_level b.
Proof. exact config_clones. Qed.
Print Assumptions C106_levels_partial.

(** What a handle writes: the messages at or above its level, unless there is no log. *)
Theorem C106_written :
  forall (l : handles) (h : nat) (e : entry),
    writes l h e = true <-> lh_backend l <> BNone /\ LoggerSpec.sev_code (get_level l h) <= LoggerSpec.sev_code (en_sev e).
Proof. exact written_iff. Qed.
Print Assumptions C106_written.

(** The storage has a clone that was made before; [-v] does not reach it, unless the log is a file. *)
Theorem C106_storage_refuted :
  forall (b : backend) (v : bool), get_level (config_logger b v) 1 = match b with BFile => if v then DEBUG else INFO | _ => first_level b end.
Proof. exact storage_level. Qed.
Print Assumptions C106_storage_refuted.

Example C106_case : In 3%nat (descends [HClone 0; HClone 2; HClone 1] 2 [0%nat]) /\ ~ In 4%nat (descends [HClone 0; HClone 2; HClone 1] 2 [0%nat]) /\
  writes (fold_left hstep [HClone 0; HClone 2] (config_logger BSyslog true)) 3 {| en_time := []; en_sev := DEBUG; en_file := []; en_line := 1; en_msg := [] |} = true.
Proof. vm_compute. intuition discriminate. Qed.
