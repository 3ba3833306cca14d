(** C89: the lock file. C90: path files. C91: CA certificates. C92: the connection state file. C93: TLS settings. *)
From Coq Require Import String NArith List Bool.
From Verif.Model Require Import Bytes Utf8 Text MainTask Storage.
From Verif.Spec Require Import TextSpec StorageSpec.
From Verif.Proofs Require Import StoragePf TrimPf.
Import ListNotations.
Local Open Scope N_scope.

(** A text *)
Definition txt (s : string) : bytes := lit s.
Arguments txt s%string.

(** ** C89 *)

(** In every interleaving of any number of instances, with any errors, at most one has passed the lock. *)
Theorem C89_exclusive : forall (pids : list N) (d : bytes) (l : list lock_event) (i j : nat) (x y : inst),
  let k := lock_run l (lock_new pids d) in
  nth_error (k_inst k) i = Some x -> nth_error (k_inst k) j = Some y -> has_lock x = true -> has_lock y = true -> i = j.
Proof. exact lock_exclusive. Qed.
Print Assumptions C89_exclusive.
(** An instance that starts while no other one has the lock gets it and leaves its process identifier in the file. *)
Theorem C89_start : forall (k : lockfs) (i : nat) (x : inst),
  nth_error (k_inst k) i = Some x -> in_phase x = PStart -> k_holder k = None ->
  let k' := lock_run (repeat (EStep i true) 5) k in
  at_phase k' i PRunning /\ k_holder k' = Some i /\ k_data k' = print_dec (in_pid x) ++ [10].
Proof. exact lock_start. Qed.
Print Assumptions C89_start.
(** While no other instance is started, the file does not change, whatever others do that started before. *)
Theorem C89_pid_partial : forall (pids : list N) (d : bytes) (l : list lock_event) (i : nat) (k : lockfs),
  k = lock_run l (lock_new pids d) -> at_phase k i PRunning -> forall (es : list lock_event), Forall (quiet i k) es ->
  at_phase (lock_run es k) i PRunning /\ k_data (lock_run es k) = k_data k.
Proof. exact lock_stays. Qed.
Print Assumptions C89_pid_partial.
Example C89_case :
  let k := lock_run ([EStep 1 true] ++ repeat (EStep 0 true) 5) (lock_new [17; 18] [120]) in
  at_phase k 0 PRunning /\ k_data k = txt "17" ++ [10] /\ quiet 0 k (EStep 1 true) /\
  k_inst (lock_run [EStep 1 true] k) = [{| in_pid := 17; in_phase := PRunning; in_off := 3 |}; {| in_pid := 18; in_phase := PDone; in_off := 0 |}].
Proof.
  split; [eexists; split; [vm_compute; reflexivity|reflexivity]|]. split; [vm_compute; reflexivity|]. split; [|vm_compute; reflexivity].
  intros [x [X P]]. vm_compute in X. injection X as X. subst x. discriminate P.
Qed.
(** A second instance that fails has erased the identifier of the first. *)
Theorem C89_erased_refuted : exists (pids : list N) (l : list lock_event), let k := lock_run l (lock_new pids []) in
  at_phase k 0 PRunning /\ at_phase k 1 PDone /\ k_data k = [].
Proof.
  exists [17; 18], (repeat (EStep 0 true) 5 ++ [EStep 1 true; EStep 1 true]).
  split; [|split]; [eexists; split; [vm_compute; reflexivity|reflexivity]|eexists; split; [vm_compute; reflexivity|reflexivity]|vm_compute; reflexivity].
Qed.
Print Assumptions C89_erased_refuted.
(** As the file is truncated before the lock is taken, a process identifier may be mixed with another one. *)
Theorem C89_mixed_refuted : exists (pids : list N) (l : list lock_event), let k := lock_run l (lock_new pids []) in
  at_phase k 0 PRunning /\ in_pid (nth 0 (k_inst k) {| in_pid := 0; in_phase := PDone; in_off := 0 |}) = 7 /\ k_data k = [55; 10; 51; 52; 53; 10].
Proof.
  exists [7; 12345], ([EStep 0 true] ++ repeat (EStep 1 true) 5 ++ [EEnd 1] ++ repeat (EStep 0 true) 4).
  split; [eexists; split; [vm_compute; reflexivity|reflexivity]|]. split; vm_compute; reflexivity.
Qed.
Print Assumptions C89_mixed_refuted.

(** If the file is truncated between the two writes, what is left is not a number at all. *)
Theorem C89_hole_refuted : exists (pids : list N) (l : list lock_event), let k := lock_run l (lock_new pids []) in
  at_phase k 0 PRunning /\ in_pid (nth 0 (k_inst k) {| in_pid := 0; in_phase := PDone; in_off := 0 |}) = 17 /\ k_data k = [0; 0; 10].
Proof.
  exists [17; 18], (repeat (EStep 0 true) 3 ++ [EStep 1 true] ++ repeat (EStep 0 true) 2).
  split; [eexists; split; [vm_compute; reflexivity|reflexivity]|]. split; vm_compute; reflexivity.
Qed.
Print Assumptions C89_hole_refuted.

(** ** C90 *)

(** The paths of a file are its lines in order except for those that start with a hash; if one line is not UTF-8, there are
    none at all. Every file consists of such lines (C90_every). *)
Theorem C90_partial : forall (l : list (bytes * bool)) (last : bytes), Forall plain_line l -> ~ In 10 last ->
  load_paths_file (Some (content l last)) =
    if forallb utf8_valid (texts l last) then Some (filter (fun t => negb (comment t)) (texts l last)) else None.
Proof. exact paths_read. Qed.
Print Assumptions C90_partial.
(** The client uses exactly these, and none if the file cannot be read. *)
Theorem C90_configured : forall (l : list (bytes * bool)) (last : bytes), Forall plain_line l -> ~ In 10 last ->
  configured_paths None = [] /\
  configured_paths (Some (content l last)) =
    if forallb utf8_valid (texts l last) then filter (fun t => negb (comment t)) (texts l last) else [].
Proof. intros l last P N0. split; [reflexivity|]. unfold configured_paths. rewrite (paths_read l last P N0). destruct (forallb _ _); reflexivity. Qed.
Print Assumptions C90_configured.
Theorem C90_every : forall (d : bytes), exists (l : list (bytes * bool)) (last : bytes),
  d = content l last /\ Forall plain_line l /\ ~ In 10 last.
Proof. exact every_content. Qed.
Print Assumptions C90_every.
Example C90_case : configured_paths (Some (txt "/live" ++ [13; 10] ++ txt "# no" ++ [10] ++ txt "/a b" ++ [13])) = [txt "/live"; txt "/a b" ++ [13]].
Proof. vm_compute. reflexivity. Qed.
(** Empty lines and lines of white space are paths; a comment may not be indented. *)
Theorem C90_blank_refuted : configured_paths (Some (txt "/live" ++ [10; 10] ++ txt "  # no" ++ [10])) = [txt "/live"; []; txt "  # no"].
Proof. vm_compute. reflexivity. Qed.
Print Assumptions C90_blank_refuted.
(** One bad line (here an é in Latin-1, in a comment) loses all paths. *)
Theorem C90_bad_refuted : configured_paths (Some (txt "# caf" ++ [233; 10] ++ txt "/live" ++ [10])) = [].
Proof. vm_compute. reflexivity. Qed.
Print Assumptions C90_bad_refuted.

(** ** C91 *)

(** A file counts as a certificate exactly if its name has one of the four extensions, in any case. *)
Theorem C91_names : forall (name : bytes), is_cert_file name = true <-> named name.
Proof. exact named_spec. Qed.
Print Assumptions C91_names.

(** The case of the 26 letters is ignored, and nothing else. *)
Theorem C91_letters : forall (b : N),
  (forall n, nth_error capitals n = Some b -> nth_error smalls n = Some (lower b)) /\ (~ In b capitals -> lower b = b).
Proof. exact lower_letters. Qed.
Print Assumptions C91_letters.
(** Nothing else is trusted than what is in such a file at or below one of the given paths. *)
Theorem C91_sound : forall (file cert : Type) (pem : file -> list cert * bool) (paths : list (node file)) (c : cert),
  In c (load_cas pem paths) -> exists p name f, In p paths /\ below p name f /\ named name /\ In c (fst (pem f)).
Proof. exact cas_sound. Qed.
Print Assumptions C91_sound.
(** All certificates below a path are trusted if no file below it goes wrong, whatever happens with the other paths. *)
Theorem C91_partial : forall (file cert : Type) (pem : file -> list cert * bool) (paths : list (node file)) (p : node file) (name : bytes) (f : file) (c : cert),
  In p paths -> fine pem p -> below p name f -> named name -> In c (fst (pem f)) -> In c (load_cas pem paths).
Proof. exact cas_complete. Qed.
Print Assumptions C91_partial.
(** Files are numbers here; a certificate with the number of the file, unless it is zero (a binary certificate). *)
Definition pem0 (f : N) : list N * bool := if f =? 0 then ([], false) else ([f], true).
Example C91_case :
  let good := NDir [NFile (txt "a.PEM") 1; NFile (txt "read.me") 2; NDir [NFile (txt "b.x.crt") 3]] in
  fine pem0 good /\ below good (txt "b.x.crt") 3 /\ load_cas pem0 [NBad; good; NFile (txt ".pem") 4] = [1; 3].
Proof.
  split; [|split; [|vm_compute; reflexivity]].
  - split.
    + intros U. repeat match goal with
        | H : unreadable (NDir _) |- _ => inversion H; clear H; subst
        | H : unreadable (NFile _ _) |- _ => inversion H
        | H : In _ _ |- _ => cbn [In] in H
        | H : _ \/ _ |- _ => destruct H
        | H : False |- _ => contradiction
        | H : NFile _ _ = _ |- _ => subst
        | H : NDir _ = _ |- _ => subst
        end.
    + intros name f B _. repeat match goal with
        | H : below (NDir _) _ _ |- _ => inversion H; clear H; subst
        | H : below (NFile _ _) _ _ |- _ => inversion H; clear H; subst
        | H : In _ _ |- _ => cbn [In] in H
        | H : _ \/ _ |- _ => destruct H
        | H : False |- _ => contradiction
        | H : NFile _ _ = _ |- _ => subst
        | H : NDir _ = _ |- _ => subst
        | |- snd (pem0 _) = true => reflexivity
        end.
  - eapply below_dir; [right; right; now left|]. eapply below_dir; [now left|]. constructor.
Qed.
(** A binary certificate is not a PEM file, though its extension is accepted: everything after it in the directory is lost. *)
Theorem C91_stop_refuted : exists (dir : node N) (name : bytes) (f : N), below dir name f /\ named name /\ pem0 f = ([f], true) /\
  ~ unreadable dir /\ ~ In f (load_cas pem0 [dir]).
Proof.
  exists (NDir [NFile (txt "a.der") 0; NFile (txt "b.pem") 1]), (txt "b.pem"), 1.
  split; [eapply below_dir; [right; now left|constructor]|]. split; [apply named_spec; vm_compute; reflexivity|]. split; [reflexivity|]. split.
  - intros U. inversion U as [|l x I X]; subst. destruct I as [I|[I|[]]]; subst x; inversion X.
  - vm_compute. auto.
Qed.
Print Assumptions C91_stop_refuted.

(** ** C92 *)

(** If every write succeeds, the file has the current state from the first change on. *)
Theorem C92_partial : forall (l : list (save_io * cstate)) (c : scell), Forall whole l ->
  reports l c = c \/ sc_file (reports l c) = Some (state_line (sc_state (reports l c))).
Proof. exact state_saved. Qed.
Print Assumptions C92_partial.
(** Whatever fails, the file has its old content or a part of the line of a state that was reported; such a part is the whole
    line of no other state. *)
Theorem C92_prefix : forall (l : list (save_io * cstate)) (c : scell), sc_file (reports l c) = sc_file c \/
  exists x n, In x l /\ sc_file (reports l c) = Some (firstn n (state_line (snd x))) /\
    forall s, firstn n (state_line (snd x)) = state_line s -> s = snd x.
Proof. exact state_parts. Qed.
Print Assumptions C92_prefix.
Example C92_case : 
  let c := reports [(Writes 20, Connected); (Writes 3, NotAuthorized); (Writes 99, Disconnected)] {| sc_state := Disconnected; sc_file := None |} in
  sc_file c = Some (txt "disconnected" ++ [10]) /\
  sc_file (reports [(Writes 20, Connected); (Writes 3, NotAuthorized)] {| sc_state := Disconnected; sc_file := None |}) = Some (txt "una").
Proof. vm_compute. auto. Qed.
(** After a restart the file keeps the state of the last run until the client gets connected. *)
Theorem C92_stale_refuted : forall (l : list (save_io * cstate)) (f : option bytes), (forall x, In x l -> snd x = Disconnected) ->
  reports l {| sc_state := Disconnected; sc_file := f |} = {| sc_state := Disconnected; sc_file := f |}.
Proof. exact state_stale. Qed.
Print Assumptions C92_stale_refuted.
(** A failed write is not repeated. *)
Theorem C92_failed_refuted : forall (l : list (save_io * cstate)) (f : option bytes), (forall x, In x l -> snd x = Connected) ->
  sc_file (reports ((CannotCreate, Connected) :: l) {| sc_state := Disconnected; sc_file := f |}) = f.
Proof. exact state_failed. Qed.
Print Assumptions C92_failed_refuted.

(** ** C93 *)

Theorem C93_tls : forall (cert : Type) (builder : option (tls_builder cert)) (set_ciphers : bytes -> bool) (ciphers : bytes)
    (cas : list cert * bool) (b : tls_builder cert), get_tls_connector builder set_ciphers ciphers cas = Some b ->
  tb_verify b = VPeer /\ tb_ciphers b = ciphers /\
  (exists b0, builder = Some b0 /\ tb_trusted b = tb_trusted b0 ++ fst cas /\
     forall i, N.testbit (tb_options b0) i = true -> N.testbit (tb_options b) i = true) /\
  forall o i, In o [NO_COMPRESSION; NO_SSLV2; NO_SSLV3; NO_TLSV1; NO_TLSV1_1] -> N.testbit o i = true -> N.testbit (tb_options b) i = true.
Proof. exact tls_safe. Qed.
Print Assumptions C93_tls.
Example C93_case : option_map tb_options (get_tls_connector (Some {| tb_options := 4; tb_verify := VNone; tb_ciphers := []; tb_trusted := [8] |}) (fun _ => true) [72] ([9], true))
  = Some 369229828.
Proof. vm_compute. reflexivity. Qed.
