(** What the log says about the scans, written without the functions that make the records. *)
From Coq Require Import String NArith ZArith List Bool.
From Verif.Model Require Import Bytes Service SvcTable TableJson JsonText Background Logger Journal ScanLog.
From Verif.Spec Require Import NumeralSpec TableSpec JsonSpec.
Import ListNotations.
Local Open Scope N_scope.

(** The changes of the reported scanner state *)
Definition state_changes (h : list bobs) : list bool :=
  List.concat (map (fun o => match o with OScanning s => [s] | _ => [] end) h).

(** The record of a scan that ended: the error, or the number of services and a JSON document with the table *)
Definition end_told (aprint : saddr -> bytes) (e : scan_end) (r : jrec) : Prop :=
  match e with
  | ScanFailed err => j_sev r = WARN /\ j_text r = lit "network scanner error ("%string ++ err ++ lit ")"%string
  | ScanFound found t =>
      j_sev r = INFO /\ exists x doc,
        j_text r = x ++ lit " services found, current service table: "%string ++ doc /\
        numeral 10 x (N.of_nat (List.length found)) /\ (forall y, x = 48 :: y -> y = []) /\
        jread doc = Some (table_to_json aprint t) /\ Forall (fun c => 32 <= c) doc
  end.
(** The record of a change of the scanner state *)
Definition change_told (aprint : saddr -> bytes) (e : scan_end) (s : bool) (r : jrec) : Prop :=
  if s then j_sev r = INFO /\ j_text r = lit "looking for local services..."%string else end_told aprint e r.

Definition WARNING : bytes := lit "network scanner thread panicked"%string.
