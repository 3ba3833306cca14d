(** What the scanner threads and the command handler write to the log. The records of the scan itself
    are those of Model/DiscLog.v. *)
From Coq Require Import String NArith ZArith List Bool.
From Verif.Model Require Import Bytes Text Service SvcTable TableJson JsonText Background Logger Journal.
Import ListNotations.
Local Open Scope N_scope.

(** How a scan ends: the text of its error; or the services found and the service table with them *)
Inductive scan_end :=
| ScanFailed (err : bytes)
| ScanFound (found : list service) (t : table).

(** src/utils/mod.rs:130-148, `result_or_log`; an error is given by its text *)
Definition result_or_log {A : Type} (sev : severity) (msg : bytes) (res : A + bytes) : option A * list jrec :=
  match res with
  | inl a => (Some a, [])
  | inr err => (None, [say sev [msg; lit " ("%string; err; lit ")"%string]])
  end.

Section ScanLog.
  (** `Display for SocketAddr` of the Rust standard library *)
  Variable aprint : saddr -> bytes.

  (** src/cmd_handler.rs:235 *)
  Definition look_rec : jrec := say INFO [lit "looking for local services..."%string].
  (** src/cmd_handler.rs:237-257 and src/svc_table/mod.rs, lines 499-503 and 689-693, `Display` of the reference to the table: the text of its JSON form *)
  Definition end_rec (e : scan_end) : list jrec :=
    let '(r, l) := result_or_log WARN (lit "network scanner error"%string) (match e with ScanFailed err => inr err | ScanFound found t => inl (found, t) end) in
    l ++ match r with
         | Some (found, t) =>
             [say INFO [print_dec (nlen found); lit " services found, current service table: "%string; jdump (table_to_json aprint t)]]
         | None => []
         end.
  (** src/cmd_handler.rs:170-174 *)
  Definition panicked_rec : jrec := say WARN [lit "network scanner thread panicked"%string].

  (** What a step writes; [e] is the end of the scan if one ends in this step. *)
  Definition bg_log (b : bg) (ev : bev) (e : scan_end) : list jrec :=
    match ev with
    | EvThread id s =>
        match thread_phase id (b_threads b), s with
        | ThNew, SBegin => [look_rec]
        | ThScanning, SFinish => end_rec e
        | _, _ => []
        end
    | EvHandle _ =>
        match b_handler b, b_queue b, b_scanner b with
        | true, HScanCompleted :: _, Some id =>
            match thread_phase id (b_threads b) with ThCrashed => [panicked_rec] | _ => [] end
        | _, _, _ => []
        end
    | _ => []
    end.
  Fixpoint bg_journal (b : bg) (es : list (bev * scan_end)) : list jrec :=
    match es with
    | [] => []
    | (ev, e) :: es' => bg_log b ev e ++ bg_journal (fst (bg_step b ev)) es'
    end.
  (** A whole history *)
  Definition scan_journal (feature discovery : bool) (es : list (bev * scan_end)) : list jrec := bg_journal (bg_new feature discovery) es.
End ScanLog.
