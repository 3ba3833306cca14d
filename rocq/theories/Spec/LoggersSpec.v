(** What the loggers promise. *)
From Coq Require Import String NArith List Bool.
From Verif.Model Require Import Bytes Text Logger Loggers.
Import ListNotations.
Local Open Scope N_scope.

(** The lines of a text that ends with a line feed *)
Fixpoint text_lines (acc d : bytes) : list bytes :=
  match d with
  | [] => match acc with [] => [] | _ => [rev acc] end
  | c :: r => if c =? 10 then rev acc :: text_lines [] r else text_lines (c :: acc) r
  end.
(** A message without line feeds *)
Definition one_line (e : entry) : Prop := ~ In 10 (en_time e) /\ ~ In 10 (en_file e) /\ ~ In 10 (en_msg e).
(** What a terminal shows: escape sequences that end with [m] have no width. *)
Fixpoint shown_text (esc : bool) (d : bytes) : bytes :=
  match d with
  | [] => []
  | c :: r => if esc then shown_text (negb (c =? 109)) r else if c =? 27 then shown_text true r else c :: shown_text false r
  end.
(** The handles that descend from handle [h] *)
Fixpoint descends (os : list hop) (n : nat) (d : list nat) : list nat :=
  match os with
  | [] => d
  | HClone h :: os' => descends os' (S n) (if existsb (Nat.eqb h) d then n :: d else d)
  | HLevel _ _ :: os' => descends os' n d
  end.
(** The severity column: seven characters *)
Definition severity_column (s : severity) : bytes :=
  match s with
  | DEBUG => lit "DEBUG  "%string
  | INFO => lit "INFO   "%string
  | WARN => lit "WARNING"%string
  | ERROR => lit "ERROR  "%string
  end.
(** The line of a message, without the line feed *)
Definition shape (e : entry) : bytes :=
  en_time e ++ lit " "%string ++ severity_column (en_sev e) ++ lit " ["%string ++ en_file e ++ lit ":"%string ++ print_dec (en_line e)
  ++ lit "] "%string ++ en_msg e.
(** The colors: bright black, white, yellow and red; the text is followed by a reset *)
Definition color_code (s : severity) : bytes :=
  match s with
  | DEBUG => lit "[1;30m"%string
  | INFO => lit "[0;37m"%string
  | WARN => lit "[0;33m"%string
  | ERROR => lit "[0;31m"%string
  end.
(** LOG_DEBUG, LOG_INFO, LOG_WARNING and LOG_ERR of syslog.h *)
Definition syslog_level (s : severity) : N := match s with DEBUG => 7 | INFO => 6 | WARN => 4 | ERROR => 3 end.
(** [escaped d d']: [d'] is [d] with every NUL written as a backslash and a zero *)
Inductive escaped : bytes -> bytes -> Prop :=
| Esc_end : escaped [] []
| Esc_nul d d' : escaped d d' -> escaped (0 :: d) (lit "\0"%string ++ d')
| Esc_other c d d' : c <> 0 -> escaped d d' -> escaped (c :: d) (c :: d').
