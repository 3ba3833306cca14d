(** The command handler, the scanner threads and the tasks of the client. *)
From Coq Require Import NArith ZArith List Bool.
From Verif.Model Require Import Client.
Import ListNotations.
Local Open Scope N_scope.

(** src/cmd_handler.rs:42 *)
Definition NETWORK_SCAN_PERIOD : Z := (300 * SEC)%Z.

(** src/cmd_handler.rs:46-50 *)
Inductive hcommand := CReset | CScan | CPeriodic.
(** src/cmd_handler.rs:54-57 *)
Inductive hevent := HCommand (c : hcommand) | HScanCompleted.

(** A scanner thread (src/cmd_handler.rs:148-155 and 223-260): about to call `set_scanning(true)`,
    scanning (up to `set_scanning(false)`, storing the results included), about to send `ScanCompleted`,
    gone, or gone by a panic. *)
Inductive tphase := ThNew | ThScanning | ThScanned | ThGone | ThCrashed.
Definition alive (p : tphase) : bool := match p with ThGone | ThCrashed => false | _ => true end.

(** A spawned abortable task. *)
Inductive task := TkRunning | TkAborting | TkEnded.

(** The command channel is an unbounded queue. Its senders belong to the client, to the main task (with
    its connection), to the periodic task, to the command handler and to the scanner threads. *)
Record bg := {
  b_feature : bool;                    (* compiled with the discovery feature *)
  b_discovery : bool;                  (* discovery enabled in the configuration *)
  b_queue : list hevent;
  b_last : option Z;                   (* src/cmd_handler.rs:89, last_nw_scan *)
  b_scanner : option N;                (* join handle: the number of the thread *)
  b_threads : list (N * tphase);       (* all threads ever started, newest first *)
  b_scanning : bool;                   (* src/context.rs:69 *)
  b_client : bool;                     (* the client still has its command channel *)
  b_main : task;
  b_periodic : task;
  b_handler : bool                     (* the command handler runs *)
}.

(** src/client.rs:292-357 and src/cmd_handler.rs:84-105, 211-219 *)
Definition bg_new (feature discovery : bool) : bg :=
  {| b_feature := feature; b_discovery := discovery; b_queue := []; b_last := None; b_scanner := None; b_threads := [];
     b_scanning := false; b_client := true; b_main := TkRunning; b_periodic := TkRunning; b_handler := true |}.

Definition set_queue (b : bg) (q : list hevent) : bg :=
  {| b_feature := b_feature b; b_discovery := b_discovery b; b_queue := q; b_last := b_last b; b_scanner := b_scanner b;
     b_threads := b_threads b; b_scanning := b_scanning b; b_client := b_client b; b_main := b_main b;
     b_periodic := b_periodic b; b_handler := b_handler b |}.
Definition set_scanner (b : bg) (last : option Z) (s : option N) : bg :=
  {| b_feature := b_feature b; b_discovery := b_discovery b; b_queue := b_queue b; b_last := last; b_scanner := s;
     b_threads := b_threads b; b_scanning := b_scanning b; b_client := b_client b; b_main := b_main b;
     b_periodic := b_periodic b; b_handler := b_handler b |}.
Definition set_threads (b : bg) (l : list (N * tphase)) (scanning : bool) : bg :=
  {| b_feature := b_feature b; b_discovery := b_discovery b; b_queue := b_queue b; b_last := b_last b; b_scanner := b_scanner b;
     b_threads := l; b_scanning := scanning; b_client := b_client b; b_main := b_main b;
     b_periodic := b_periodic b; b_handler := b_handler b |}.
Definition set_tasks (b : bg) (client : bool) (m p : task) (h : bool) : bg :=
  {| b_feature := b_feature b; b_discovery := b_discovery b; b_queue := b_queue b; b_last := b_last b; b_scanner := b_scanner b;
     b_threads := b_threads b; b_scanning := b_scanning b; b_client := client; b_main := m; b_periodic := p; b_handler := h |}.

(** Observable effects. *)
Inductive bobs :=
| OStart (t : Z) (periodic : bool) (id : N)   (* a scanner thread is started *)
| OGone (t : Z) (id : N)                      (* a scanner thread has done its work *)
| OCrash (id : N)                             (* a scanner thread panics *)
| OJoin (id : N) (running : bool)             (* the handler joins a thread; it would block if it runs *)
| OScanning (s : bool)                        (* the reported scanner state changes *)
| OReset                                      (* the service table is reset *)
| OBroken.                                    (* a panic: the receiver of the channel is gone *)

(** src/cmd_handler.rs:76-81, `send` (and `unbounded_send(..).unwrap()`) *)
Definition push (b : bg) (e : hevent) : bg * list bobs :=
  if b_handler b then (set_queue b (b_queue b ++ [e]), []) else (b, [OBroken]).

(** src/cmd_handler.rs:141-166, `scan_network`. Without the discovery feature a completion is reported
    at once. *)
Definition scan_network (b : bg) (t : Z) (periodic : bool) : bg * list bobs :=
  if b_feature b then
    if negb (b_discovery b) || match b_scanner b with Some _ => true | None => false end then (b, [])
    else
      let id := N.of_nat (length (b_threads b)) in
      (set_threads (set_scanner b (b_last b) (Some id)) ((id, ThNew) :: b_threads b) (b_scanning b), [OStart t periodic id])
  else push b HScanCompleted.

(** src/cmd_handler.rs:129-139, `periodic_network_scan`; `elapsed` is never negative. *)
Definition periodic_network_scan (b : bg) (t : Z) : bg * list bobs :=
  let since := match b_last b with Some t0 => Z.max 0 (t - t0) | None => NETWORK_SCAN_PERIOD end in
  if (NETWORK_SCAN_PERIOD <=? since)%Z then scan_network b t true else (b, []).

Definition thread_phase (id : N) (l : list (N * tphase)) : tphase :=
  match find (fun p => N.eqb (fst p) id) l with Some p => snd p | None => ThGone end.
Definition set_thread (id : N) (p : tphase) (l : list (N * tphase)) : list (N * tphase) :=
  map (fun x => if N.eqb (fst x) id then (id, p) else x) l.

(** src/cmd_handler.rs:168-177, `scan_completed` *)
Definition scan_completed (b : bg) (t : Z) : bg * list bobs :=
  match b_scanner b with
  | Some id => (set_scanner b (Some t) None, [OJoin id (alive (thread_phase id (b_threads b)))])
  | None => (set_scanner b (Some t) None, [])
  end.

(** src/cmd_handler.rs:107-127 *)
Definition process_event (b : bg) (t : Z) (e : hevent) : bg * list bobs :=
  match e with
  | HCommand CReset => (b, [OReset])
  | HCommand CScan => scan_network b t false
  | HCommand CPeriodic => periodic_network_scan b t
  | HScanCompleted => scan_completed b t
  end.

(** Somebody holds a sender: while the handler runs it holds one itself (src/cmd_handler.rs:88, 215). *)
Definition task_alive (t : task) : bool := match t with TkEnded => false | _ => true end.
Definition has_sender (b : bg) : bool :=
  b_client b || task_alive (b_main b) || task_alive (b_periodic b) || b_handler b || existsb (fun p => alive (snd p)) (b_threads b).

(** Steps of a scanner thread. *)
Inductive tstep := SBegin | SFinish | SReport (t : Z) | SPanic.

(** src/context.rs:248-268, `set_scanning`, without the listeners (Model/Events.v) *)
Definition set_scanning (b : bg) (l : list (N * tphase)) (s : bool) : bg * list bobs :=
  (set_threads b l s, if eqb (b_scanning b) s then [] else [OScanning s]).

(** src/cmd_handler.rs:148-155, 223-260 *)
Definition thread_step (b : bg) (id : N) (s : tstep) : bg * list bobs :=
  let p := thread_phase id (b_threads b) in
  match p, s with
  | ThNew, SBegin => set_scanning b (set_thread id ThScanning (b_threads b)) true
  | ThScanning, SFinish => set_scanning b (set_thread id ThScanned (b_threads b)) false
  | ThScanned, SReport t =>
      let '(b1, o) := push b HScanCompleted in
      (set_threads b1 (set_thread id ThGone (b_threads b1)) (b_scanning b1), OGone t id :: o)
  | (ThNew | ThScanning | ThScanned), SPanic =>
      (set_threads b (set_thread id ThCrashed (b_threads b)) (b_scanning b), [OCrash id])
  | _, _ => (b, [])
  end.

(** Everything that can happen. [EvApi]: `scan_network`, `rescan_network` of the client
    (src/client.rs:402-415, `rescan` is two commands); [EvServer]: the connection passes on a command;
    [EvTimer]: the periodic task (src/client.rs:313-319); [EvHandle]: the command handler is polled
    (src/cmd_handler.rs:191-195); [EvThread]; [EvClose]: `close` (src/client.rs:417-429); [EvMain] and
    [EvPeriodic]: the runtime polls an aborted task, which ends it and drops its channel. *)
Inductive bev :=
| EvApi (c : hcommand)
| EvServer (c : hcommand)
| EvTimer
| EvHandle (t : Z)
| EvThread (id : N) (s : tstep)
| EvClose
| EvMain
| EvPeriodic.

Definition abort (t : task) : task := match t with TkRunning => TkAborting | _ => t end.
Definition finish (t : task) : task := match t with TkAborting => TkEnded | _ => t end.

Definition bg_step (b : bg) (e : bev) : bg * list bobs :=
  match e with
  | EvApi c => if b_client b then push b (HCommand c) else (b, [])
  | EvServer c => match b_main b with TkRunning => push b (HCommand c) | _ => (b, []) end
  | EvTimer => match b_periodic b with TkRunning => push b (HCommand CPeriodic) | _ => (b, []) end
  | EvHandle t =>
      if b_handler b then
        match b_queue b with
        | [] => if has_sender b then (b, []) else (set_tasks b (b_client b) (b_main b) (b_periodic b) false, [])
        | e :: q => process_event (set_queue b q) t e
        end
      else (b, [])
  | EvThread id s => thread_step b id s
  | EvClose => (set_tasks b false (abort (b_main b)) (abort (b_periodic b)) (b_handler b), [])
  | EvMain => (set_tasks b (b_client b) (finish (b_main b)) (b_periodic b) (b_handler b), [])
  | EvPeriodic => (set_tasks b (b_client b) (b_main b) (finish (b_periodic b)) (b_handler b), [])
  end.

Fixpoint bg_run (b : bg) (es : list bev) : bg * list bobs :=
  match es with
  | [] => (b, [])
  | e :: es' =>
      let '(b1, o1) := bg_step b e in
      let '(b2, o2) := bg_run b1 es' in
      (b2, o1 ++ o2)
  end.

(** A whole history. *)
Definition background (feature discovery : bool) (es : list bev) : bg * list bobs := bg_run (bg_new feature discovery) es.
