(** The mutexes of the client: which of them every function takes, in which order, and where code of the
    application is called.

    Values are left out; a choice of the program that depends on values is an argument of the definition. Numbers
    tell connections, sessions and service tables apart. Locks of the logger are taken whatever its level is;
    loggers without a mutex (standard error, syslog) are covered, as they do less. A task of the tokio runtime
    holds no lock while it waits (no guard lives across an await), so a worker thread is any sequence of the
    functions below. `JoinHandle::join` in src/cmd_handler.rs:168-177 waits for a thread that has sent its last
    event and takes no more locks; it is left out. *)
From Coq Require Import NArith List Bool.
Import ListNotations.

Inductive lock :=
| LConn (n : nat)    (* src/net/arrow/mod.rs:573, the context of a connection *)
| LSess (n : nat)    (* src/net/arrow/session.rs:344, the context of a session *)
| LApp               (* src/context.rs:164 *)
| LTable (n : nat)   (* src/svc_table/mod.rs:538, 644 *)
| LCapture           (* src/net/raw/pcap/mod.rs:64 *)
| LLog.              (* src/utils/logger/file.rs:124, src/exports/logger.rs:88 *)

(** Code of the application: listeners (src/context.rs:57-63), a storage (src/exports/storage/custom.rs), a
    logger (src/exports/logger.rs). *)
Inductive cb := CListener | CStorage | CLogger.

Inductive act := Acq (l : lock) | Rel (l : lock) | Call (c : cb).

Definition lock_eqb (a b : lock) : bool :=
  match a, b with
  | LConn n, LConn m | LSess n, LSess m | LTable n, LTable m => Nat.eqb n m
  | LApp, LApp | LCapture, LCapture | LLog, LLog => true
  | _, _ => false
  end.

(** A guard that lives for the duration of [body]. *)
Definition locked (l : lock) (body : list act) : list act := Acq l :: body ++ [Rel l].
Definition times (n : nat) (p : list act) : list act := concat (repeat p n).
Definition when (b : bool) (p : list act) : list act := if b then p else [].

(** src/utils/logger/file.rs:162, src/exports/logger.rs:60-80 and 102: the message is formatted and written with
    the mutex held. *)
Definition log_line : list act := locked LLog [Call CLogger].
(** src/cmd_handler.rs:251-256: the service table is formatted by the logger (`format_args!`,
    src/svc_table/mod.rs:691). *)
Definition log_table (t : nat) : list act := locked LLog (locked (LTable t) [] ++ [Call CLogger]).
(** src/svc_table/mod.rs:560-691 *)
Definition table_op (t : nat) : list act := locked (LTable t) [].
(** src/context.rs:176-236, 270-289, 313, 338-353: the functions that only read or replace a field *)
Definition app_op : list act := locked LApp [].

(** src/config.rs:1143-1163, `save`: the table is copied and the copy is printed by the storage
    (src/storage.rs:448-470, src/exports/storage/custom.rs:85-100). *)
Definition save (t copy : nat) (err : bool) : list act :=
  table_op t ++ table_op copy ++ [Call CStorage] ++ when err log_line.
(** src/context.rs:303-309, src/config.rs:1073-1082 *)
Definition reset_service_table (default t copy : nat) (err : bool) : list act :=
  locked LApp (table_op default ++ save t copy err).
(** src/context.rs:291-300, src/config.rs:1085-1112; [n] services *)
Definition update_service_table (n t copy : nat) (changed err : bool) : list act :=
  locked LApp (table_op t ++ table_op t ++ times n (table_op t) ++ table_op t ++ table_op t ++ table_op t ++
               when changed (save t copy err)).
(** src/context.rs:317-336, src/config.rs:1116-1124; [n] listeners. The mutex is released while they are called. *)
Definition set_connection_state (changed err : bool) (n : nat) : list act :=
  locked LApp (when changed ([Call CStorage] ++ when err log_line)) ++
  when changed (times n [Call CListener] ++ app_op).
(** src/context.rs:249-268 *)
Definition set_scanning (changed : bool) (n : nat) : list act :=
  app_op ++ when changed (times n [Call CListener] ++ app_op).
(** src/context.rs:239-246, src/config.rs:1031-1063, src/storage.rs:353-370; [n] certificate paths fail *)
Definition get_tls_connector (n : nat) : list act := locked LApp (Call CStorage :: times n log_line).

(** src/net/arrow/mod.rs:111-152, 224-246 and src/net/arrow/session.rs:498-518: the context is not shared yet *)
Definition client_new (t : nat) : list act :=
  times 8 app_op ++ log_line ++ table_op t ++ app_op ++ app_op ++ table_op t.

(** src/net/arrow/session.rs:647-657, `create_hup_message` *)
Definition create_hup : list act := log_line.
(** What a message of the server makes the client do: src/net/arrow/mod.rs:272-543. *)
Inductive handled :=
| HIgnored                                   (* 274-276 and all messages refused before anything is logged *)
| HLogged                                    (* 297-301 only: unknown or unexpected messages, wrong states, REDIRECT, commands *)
| HAck                                       (* 345-354 *)
| HConnect (known open : bool) (t : nat)     (* 376-391, session.rs:527-551, 595-644 *)
| HDataAck (s : option nat)                  (* 394-409, session.rs:587-591 *)
| HPing                                      (* 411-427 *)
| HHup (s : option nat)                      (* 430-442, session.rs:574-584 *)
| HStatus                                    (* 467-493 *)
| HReport (n t : nat)                        (* 494-515, scan_report/mod.rs:64-86; n services *)
| HData (s : option nat).                    (* 532-543, session.rs:554-571 *)
Definition sess_op (s : nat) : list act := locked (LSess s) [].
Definition handle (h : handled) : list act :=
  match h with
  | HIgnored => []
  | HLogged => log_line
  | HAck => log_line ++ app_op
  | HConnect known open t =>
      log_line ++ (if open then log_line ++ create_hup
                   else table_op t ++ (if known then log_line else log_line ++ create_hup))
  | HDataAck s => match s with Some s => sess_op s | None => [] end
  | HPing => log_line ++ log_line
  | HHup s => log_line ++ match s with Some s => log_line ++ sess_op s | None => [] end
  | HStatus => log_line ++ app_op ++ log_line
  | HReport n t => log_line ++ log_line ++ app_op ++ app_op ++ times n (table_op t)
  | HData s => match s with Some s => sess_op s | None => create_hup end
  end.
(** src/net/arrow/session.rs:676-735: sessions are asked in turn; the last one may end *)
Definition manager_poll (ss : list nat) (ended : bool) : list act :=
  flat_map sess_op ss ++ when ended (log_line ++ create_hup).
(** src/net/arrow/mod.rs:631-668: the mutex is held for the whole poll *)
Definition connection_poll (c : nat) (rounds : list (handled * (list nat * bool))) : list act :=
  locked (LConn c) (flat_map (fun x => handle (fst x) ++ manager_poll (fst (snd x)) (snd (snd x))) rounds).
(** src/net/arrow/mod.rs:595-609 and 173-200, 248-269 *)
Definition watchdog_tick (c t : nat) (ping check update : bool) : list act :=
  locked (LConn c) (when ping log_line ++
                    when check (table_op t ++ when update (log_line ++ table_op t ++ table_op t))).
(** src/net/arrow/mod.rs:617-619, 622-630 and src/net/arrow/session.rs:660-672 *)
Definition get_redirect (c : nat) : list act := locked (LConn c) [].
Definition connection_drop (c : nat) (ss : list nat) : list act :=
  locked (LConn c) [] ++ flat_map (fun s => log_line ++ sess_op s) ss.
(** src/net/arrow/session.rs:376-383 and 452-475 *)
Definition transport_poll (s : nat) : list act := sess_op s.

(** src/client.rs:64-80, 92-112 and 115-147 *)
Definition main_start : list act := times 3 app_op.
Definition main_connect (changed err : bool) (n fails t : nat) : list act :=
  log_line ++ set_connection_state changed err n ++ get_tls_connector fails ++ client_new t.
Definition main_result (changed err : bool) (n waits : nat) : list act :=
  log_line ++ set_connection_state changed err n ++ times waits log_line.
(** src/client.rs:331-338 *)
Definition client_started : list act := app_op ++ app_op ++ app_op ++ log_line.
(** src/cmd_handler.rs:141-158, 168-177: get_discovery, the warning of a lost scan *)
Definition handler_scan : list act := app_op.
Definition handler_completed (panicked : bool) : list act := when panicked log_line.
(** src/cmd_handler.rs:221-260; [work]: log messages and capture handles of the scan
    (src/net/raw/pcap/mod.rs:152-162) *)
Definition scanner_thread (c1 c2 : bool) (n1 n2 : nat) (work : list bool) (found : option (nat * nat * bool * bool)) (t : nat) : list act :=
  times 4 app_op ++ set_scanning c1 n1 ++ log_line ++
  flat_map (fun b : bool => if b then locked LCapture [] else log_line) work ++
  match found with
  | Some (n, copy, changed, err) => update_service_table n t copy changed err ++ app_op ++ app_op ++ log_table t
  | None => log_line
  end ++
  set_scanning c2 n2.

(** The functions of the C interface that use a client: src/exports/mod.rs:184-258 and src/client.rs:360-428. *)
Inductive api :=
| ApiGet                      (* get_uuid, get_mac_address, add_*_callback; get_connection_state, is_scanning in Rust *)
| ApiServices (t : nat)       (* get_service_table *)
| ApiCommand.                 (* scan_network, rescan_network, close: channels and abort handles only *)
Definition api_acts (a : api) : list act :=
  match a with
  | ApiGet => app_op
  | ApiServices t => app_op ++ table_op t
  | ApiCommand => []
  end.

(** Everything a thread of the client runs. *)
Inductive fn :=
| FApi (a : api)
| FMainStart
| FMainConnect (changed err : bool) (n fails t : nat)
| FMainResult (changed err : bool) (n waits : nat)
| FStarted
| FPoll (c : nat) (rounds : list (handled * (list nat * bool)))
| FTick (c t : nat) (ping check update : bool)
| FRedirect (c : nat)
| FDrop (c : nat) (ss : list nat)
| FTransport (s : nat)
| FReset (default t copy : nat) (err : bool)
| FHandlerScan
| FHandlerCompleted (panicked : bool)
| FScanner (c1 c2 : bool) (n1 n2 : nat) (work : list bool) (found : option (nat * nat * bool * bool)) (t : nat).
Definition acts (f : fn) : list act :=
  match f with
  | FApi a => api_acts a
  | FMainStart => main_start
  | FMainConnect changed err n fails t => main_connect changed err n fails t
  | FMainResult changed err n waits => main_result changed err n waits
  | FStarted => client_started
  | FPoll c rounds => connection_poll c rounds
  | FTick c t ping check update => watchdog_tick c t ping check update
  | FRedirect c => get_redirect c
  | FDrop c ss => connection_drop c ss
  | FTransport s => transport_poll s
  | FReset default t copy err => reset_service_table default t copy err
  | FHandlerScan => handler_scan
  | FHandlerCompleted panicked => handler_completed panicked
  | FScanner c1 c2 n1 n2 work found t => scanner_thread c1 c2 n1 n2 work found t
  end.

(** Threads: what is left to do, and the locks held. `std::sync::Mutex` is exclusive and not reentrant. *)
Record thread := { todo : list act; held : list lock }.
Definition thread_new (fs : list fn) : thread := {| todo := flat_map acts fs; held := [] |}.
Definition holds (l : lock) (t : thread) : bool := existsb (lock_eqb l) (held t).
Fixpoint release (l : lock) (h : list lock) : list lock :=
  match h with
  | [] => []
  | x :: h => if lock_eqb l x then h else x :: release l h
  end.
Fixpoint set_nth {A} (i : nat) (x : A) (l : list A) : list A :=
  match i, l with
  | _, [] => []
  | O, _ :: l => x :: l
  | S i, y :: l => y :: set_nth i x l
  end.
(** One step of thread [i]; [q] is what the code of the application does, if it is called. *)
Definition step (i : nat) (q : list act) (s : list thread) : option (list thread) :=
  match nth_error s i with
  | Some t =>
      match todo t with
      | [] => None
      | Acq l :: p => if existsb (holds l) s then None else Some (set_nth i {| todo := p; held := l :: held t |} s)
      | Rel l :: p => Some (set_nth i {| todo := p; held := release l (held t) |} s)
      | Call c :: p => Some (set_nth i {| todo := q ++ p; held := held t |} s)
      end
  | None => None
  end.
