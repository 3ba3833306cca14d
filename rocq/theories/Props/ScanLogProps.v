(** Property C149: what the log says about the scans of the local network.

    [scan_journal aprint f d es]: the records of a history [es] of the background tasks, with the ends of the scans. *)
From Coq Require Import String NArith ZArith List Bool.
From Verif.Model Require Import Bytes Text Service SvcTable TableJson JsonText Background Logger Journal ScanLog.
From Verif.Spec Require Import NumeralSpec TableSpec ClientSpec BackgroundSpec JsonSpec ScanLogSpec.
From Verif.Proofs Require Import ScanLogPf ScanLogPf2.
Import ListNotations.
Local Open Scope N_scope.

(** C149: each step adds to the log the records of the changes of the scanner state that it makes, in order and nothing else: the
    beginning of a scan, and its end with the error, or with the number of services and the table. *)
Theorem C149_scans :
  forall (aprint : saddr -> bytes) (f d : bool) (es : list (bev * scan_end)) (ev : bev) (e : scan_end) (t0 : Z),
    ascending t0 (clock (map fst es)) ->
    exists r, scan_journal aprint f d (es ++ [(ev, e)]) = scan_journal aprint f d es ++ r /\
      Forall2 (change_told aprint e) (state_changes (snd (bg_step (fst (background f d (map fst es))) ev))) r.
Proof. exact scans_told. Qed.
Print Assumptions C149_scans.

(** The table can be read from the record. *)
Theorem C149_table :
  forall (aprint : saddr -> bytes) (aparse : bytes -> option saddr) (now : Z) (found : list service) (t : table) (r : jrec),
    consistent t ->
    (forall id s, stored t id = Some s -> svc_is_control s = false -> savable aprint aparse s) ->
    (forall id x, seen t id = Some x -> (- 2 ^ 63 <= x < 2 ^ 63)%Z) ->
    end_told aprint (ScanFound found t) r ->
    exists x doc j t', j_text r = x ++ lit " services found, current service table: "%string ++ doc /\
      jread doc = Some j /\ table_from_json aparse now j = ROk t' /\
      forall id, stored t' id = stored t id /\ (id <> 0 -> static t' id = static t id /\ active t' id = active t id /\ seen t' id = seen t id).
Proof. exact table_in_log. Qed.
Print Assumptions C149_table.

(** Whatever the found services are, the records are single lines, unless the text of an error is not. *)
Theorem C149_lines :
  forall (aprint : saddr -> bytes) (f d : bool) (es : list (bev * scan_end)) (t0 : Z),
    ascending t0 (clock (map fst es)) ->
    Forall (fun p => match snd p with ScanFailed err => ~ In 10 err | _ => True end) es ->
    Forall (fun r => ~ In 10 (j_text r)) (scan_journal aprint f d es).
Proof. exact scan_lines. Qed.
Print Assumptions C149_lines.

(** That a scanner thread panicked is never said: the warning is written when the thread is joined, but the thread is joined only
    after it has reported the end of the scan. *)
Theorem C149_panic_refuted :
  (forall (aprint : saddr -> bytes) (f d : bool) (es : list (bev * scan_end)) (t0 : Z),
    ascending t0 (clock (map fst es)) -> Forall (fun r => j_text r <> WARNING) (scan_journal aprint f d es)) /\
  exists es, ascending 0 (clock es) /\ crashed (snd (background true true es)) = true.
Proof. exact unwarned. Qed.
Print Assumptions C149_panic_refuted.

Example C149_case :
  map j_text (scan_journal ex_addr true true ex_scanned) =
  [lit "looking for local services..."%string; lit "network scanner error (no device)"%string; lit "looking for local services..."%string;
   lit "1 services found, current service table: {""services"":[{""id"":1,""svc_type"":6,""mac"":""00:00:00:00:00:07"",""address"":""80"",""path"":""/a\n"",""static_svc"":false,""last_seen"":5,""active"":true}]}"%string] /\
  ascending 0 (clock (map fst ex_scanned)) /\
  consistent ex_table /\ (forall id s, stored ex_table id = Some s -> svc_is_control s = false -> savable ex_addr ex_read s).
Proof. exact case_ok. Qed.
