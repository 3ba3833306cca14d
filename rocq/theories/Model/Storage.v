(** The files of the client: src/storage.rs. The configuration file is in Config.v. *)
From Coq Require Import String NArith List Bool.
From Verif.Model Require Import Bytes Utf8 Text MainTask.
Import ListNotations.
Local Open Scope N_scope.

(** ** Path files: storage.rs:471-490 *)

(** `BufRead::lines`: lines end with a line feed, one carriage return before it is removed; the last line may have no end. *)
Definition strip_cr (l : bytes) : bytes := match rev l with 13 :: r => rev r | _ => l end.
Fixpoint file_lines (acc d : bytes) : list bytes :=
  match d with
  | [] => match acc with [] => [] | _ => [rev acc] end
  | c :: r => if c =? 10 then strip_cr (rev acc) :: file_lines [] r else file_lines (c :: acc) r
  end.
(** storage.rs:482-487 *)
Fixpoint keep_paths (l : list bytes) : option (list bytes) :=
  match l with
  | [] => Some []
  | p :: r =>
      if utf8_valid p then option_map (fun k => if starts_with [35] p then k else p :: k) (keep_paths r) else None
  end.
(** storage.rs:471-490 with 338-352; [d] is the content of the file, [None] if it cannot be opened or read *)
Definition load_paths_file (d : option bytes) : option (list bytes) :=
  match d with Some d => keep_paths (file_lines [] d) | None => None end.
(** src/config.rs:276-288, 300-301: no paths if they cannot be loaded *)
Definition configured_paths (d : option bytes) : list bytes :=
  match load_paths_file d with Some l => l | None => [] end.

(** ** Connection state: storage.rs:328-336, src/context.rs:31-54, 128-133, 316-335 *)

Definition state_text (s : cstate) : bytes :=
  match s with
  | Connected => lit "connected"
  | Disconnected => lit "disconnected"
  | NotAuthorized => lit "unauthorized"
  end%string.
(** What happens to the file: nothing if it cannot be created, otherwise a number of bytes of the line is written (all, unless
    there is an error or the client is killed). *)
Inductive save_io := CannotCreate | Writes (n : nat).
Definition save_state (io : save_io) (s : cstate) (f : option bytes) : option bytes :=
  match io with CannotCreate => f | Writes n => Some (firstn n (state_text s ++ [10])) end.
Record scell := { sc_state : cstate; sc_file : option bytes }.
(** src/context.rs:316-335; errors are logged (src/config.rs:1114-1123) *)
Definition report_state (io : save_io) (s : cstate) (c : scell) : scell :=
  if cstate_eqb s (sc_state c) then c else {| sc_state := s; sc_file := save_state io s (sc_file c) |}.

(** ** CA certificates: storage.rs:354-421 *)

(** `Path::extension` of a file name: what follows the last dot, unless the name starts with it or there is none *)
Definition extension (name : bytes) : option bytes :=
  match rfind_char 46 name with
  | Some (S i) => Some (skipn (S (S i)) name)
  | _ => None
  end.
(** storage.rs:404-421; `to_string_lossy` does not change an extension that is ASCII, and no other can be equal to one *)
Definition is_cert_file (name : bytes) : bool :=
  match extension name with
  | Some e => eq_ignore_case e (lit "der") || eq_ignore_case e (lit "cer") || eq_ignore_case e (lit "crt") || eq_ignore_case e (lit "pem")
  | None => false
  end%string.

Section Ca.
  Context {file cert : Type}.
  (** `set_ca_file`: the certificates that are added, and whether it succeeds *)
  Variable pem : file -> list cert * bool.
  (** A file, a directory with its entries in the order `read_dir` gives them, or something that cannot be read (a directory
      or the next entry of one) *)
  Inductive node := NFile (name : bytes) (f : file) | NDir (l : list node) | NBad.
  (** storage.rs:381-402: what is added to the store, and whether all went well; the first error ends it *)
  Fixpoint load_ca (n : node) : list cert * bool :=
    match n with
    | NFile name f => if is_cert_file name then pem f else ([], true)
    | NDir l =>
        (fix entries (l : list node) : list cert * bool :=
           match l with
           | [] => ([], true)
           | x :: r => let '(c, ok) := load_ca x in
                       if ok then let '(c', ok') := entries r in (c ++ c', ok') else (c, false)
           end) l
    | NBad => ([], false)
    end.
  (** storage.rs:354-370: errors are logged *)
  Definition load_cas (paths : list node) : list cert := List.concat (map (fun p => fst (load_ca p)) paths).
End Ca.
Arguments node : clear implicits.
Arguments NFile {file}.
Arguments NDir {file}.
Arguments NBad {file}.

(** ** TLS settings: src/config.rs:1031-1063 *)

Inductive verify := VNone | VPeer.
Record tls_builder (cert : Type) := { tb_options : N; tb_verify : verify; tb_ciphers : bytes; tb_trusted : list cert }.
Arguments tb_options {cert}.
Arguments tb_verify {cert}.
Arguments tb_ciphers {cert}.
Arguments tb_trusted {cert}.
(** The options of OpenSSL 1.1; NO_SSLV2 is zero *)
Definition NO_COMPRESSION : N := 131072.
Definition NO_SSLV2 : N := 0.
Definition NO_SSLV3 : N := 33554432.
Definition NO_TLSV1 : N := 67108864.
Definition NO_TLSV1_1 : N := 268435456.
(** [builder]: a new builder, or an error; [set_ciphers] tells whether a cipher list is accepted; [cas] is the result of the
    storage: the certificates added, and whether it succeeded *)
Definition get_tls_connector {cert} (builder : option (tls_builder cert)) (set_ciphers : bytes -> bool) (ciphers : bytes)
    (cas : list cert * bool) : option (tls_builder cert) :=
  match builder with
  | None => None
  | Some b =>
      let options := N.lor (N.lor (N.lor (N.lor (N.lor (tb_options b) NO_COMPRESSION) NO_SSLV2) NO_SSLV3) NO_TLSV1) NO_TLSV1_1 in
      if set_ciphers ciphers
      then if snd cas
           then Some {| tb_options := options; tb_verify := VPeer; tb_ciphers := ciphers; tb_trusted := tb_trusted b ++ fst cas |}
           else None
      else None
  end.

(** ** Lock file: storage.rs:187-234 *)

(** What an instance of the client does at its start; then it runs until it ends *)
Inductive phase := PStart | PCreated | PLocked | PNumber | PLine | PRunning | PDone.
Record inst := { in_pid : N; in_phase : phase; in_off : nat }.
(** The file, the instance that has the lock, and all instances *)
Record lockfs := { k_data : bytes; k_holder : option nat; k_inst : list inst }.
(** Writing to a file at a position; a gap is filled with zeros *)
Definition overwrite (off : nat) (d data : bytes) : bytes :=
  firstn off (data ++ repeat 0 off) ++ d ++ skipn (off + length d) data.
Definition set_inst (l : list inst) (i : nat) (x : inst) : list inst := firstn i l ++ x :: skipn (S i) l.
(** The next step of instance [i], which succeeds or not; [EEnd]: the instance ends *)
Inductive lock_event := EStep (i : nat) (ok : bool) | EEnd (i : nat).
Definition release (i : nat) (h : option nat) : option nat :=
  match h with Some j => if Nat.eqb i j then None else h | None => None end.
Definition with_phase (x : inst) (p : phase) (off : nat) : inst := {| in_pid := in_pid x; in_phase := p; in_off := off |}.
(** storage.rs:201-208: `File::create` truncates the file; `try_lock_exclusive` (flock) fails if another open file has the
    lock; `write_fmt` writes the number and then the line feed; an error drops the file, which releases the lock *)
Definition lock_step (e : lock_event) (k : lockfs) : lockfs :=
  let done i x data := {| k_data := data; k_holder := release i (k_holder k); k_inst := set_inst (k_inst k) i (with_phase x PDone 0) |} in
  let next i x p off data h := {| k_data := data; k_holder := h; k_inst := set_inst (k_inst k) i (with_phase x p off) |} in
  match e with
  | EEnd i => match nth_error (k_inst k) i with Some x => done i x (k_data k) | None => k end
  | EStep i ok =>
      match nth_error (k_inst k) i with
      | None => k
      | Some x =>
          match in_phase x with
          | PStart => if ok then next i x PCreated 0%nat [] (k_holder k) else done i x (k_data k)
          | PCreated =>
              match k_holder k with
              | Some _ => done i x (k_data k)
              | None => if ok then next i x PLocked 0%nat (k_data k) (Some i) else done i x (k_data k)
              end
          | PLocked =>
              let d := print_dec (in_pid x) in
              if ok then next i x PNumber (length d) (overwrite 0 d (k_data k)) (k_holder k) else done i x (k_data k)
          | PNumber => if ok then next i x PLine (S (in_off x)) (overwrite (in_off x) [10] (k_data k)) (k_holder k) else done i x (k_data k)
          | PLine => if ok then next i x PRunning (in_off x) (k_data k) (k_holder k) else done i x (k_data k)
          | PRunning | PDone => k
          end
      end
  end.
