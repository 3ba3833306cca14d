(** Statements about the files of the client. *)
From Coq Require Import String NArith List Bool.
From Verif.Model Require Import Bytes Utf8 Text MainTask Storage.
Import ListNotations.
Local Open Scope N_scope.

(** ** Path files *)

(** A line and its end. The text has no line feed; if the line ends with a line feed only, the text does not end with a
    carriage return. *)
Definition line_of (x : bytes * bool) : bytes := fst x ++ (if snd x then [13; 10] else [10]).
Definition plain_line (x : bytes * bool) : Prop := ~ In 10 (fst x) /\ (snd x = false -> forall t, fst x <> t ++ [13]).
(** The content of a file: lines, and maybe a last one without an end *)
Definition content (l : list (bytes * bool)) (last : bytes) : bytes := List.concat (map line_of l) ++ last.
Definition texts (l : list (bytes * bool)) (last : bytes) : list bytes :=
  map fst l ++ match last with [] => [] | _ => [last] end.
Definition comment (t : bytes) : bool := match t with 35 :: _ => true | _ => false end.

(** ** Connection state *)

Definition reports (l : list (save_io * cstate)) (c : scell) : scell := fold_left (fun c x => report_state (fst x) (snd x) c) l c.
Definition state_line (s : cstate) : bytes :=
  match s with
  | Connected => lit "connected"%string ++ [10]
  | Disconnected => lit "disconnected"%string ++ [10]
  | NotAuthorized => lit "unauthorized"%string ++ [10]
  end.
(** The whole line is written. *)
Definition whole (x : save_io * cstate) : Prop :=
  match fst x with CannotCreate => False | Writes n => (length (state_line (snd x)) <= n)%nat end.

(** ** CA certificates *)

Definition named (name : bytes) : Prop :=
  exists stem ext, name = stem ++ [46] ++ ext /\ stem <> [] /\ ~ In 46 ext /\
    In (map lower ext) [lit "der"; lit "cer"; lit "crt"; lit "pem"]%string.
Inductive below {file} : node file -> bytes -> file -> Prop :=
| below_file : forall name f, below (NFile name f) name f
| below_dir : forall l x name f, In x l -> below x name f -> below (NDir l) name f.
Inductive unreadable {file} : node file -> Prop :=
| bad_here : unreadable NBad
| bad_below : forall l x, In x l -> unreadable x -> unreadable (NDir l).
(** Nothing below goes wrong. *)
Definition fine {file cert} (pem : file -> list cert * bool) (n : node file) : Prop :=
  ~ unreadable n /\ forall name f, below n name f -> named name -> snd (pem f) = true.

(** ** Lock file *)

Definition lock_run (l : list lock_event) (k : lockfs) : lockfs := fold_left (fun k e => lock_step e k) l k.
(** Instances that did not start yet, and a file with any content *)
Definition lock_new (pids : list N) (d : bytes) : lockfs :=
  {| k_data := d; k_holder := None; k_inst := map (fun p => {| in_pid := p; in_phase := PStart; in_off := 0 |}) pids |}.
Definition has_lock (x : inst) : bool := match in_phase x with PLocked | PNumber | PLine | PRunning => true | _ => false end.
Definition at_phase (k : lockfs) (i : nat) (p : phase) : Prop := exists x, nth_error (k_inst k) i = Some x /\ in_phase x = p.
(** The event is not a start of another instance, and instance [i] does not end. *)
Definition quiet (i : nat) (k : lockfs) (e : lock_event) : Prop :=
  match e with
  | EEnd j => j <> i
  | EStep j _ => ~ at_phase k j PStart
  end.
