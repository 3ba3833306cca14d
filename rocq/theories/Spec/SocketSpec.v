(** Counting network connections. *)
From Coq Require Import NArith List Bool.
From Verif.Model Require Import Bytes Frame Service Control Alist Session Manager Sockets.
Import ListNotations.

(** The connection is being set up or is open. *)
Definition in_use (s : sess) : bool := match s_phase s with TDone => false | _ => true end.
(** Connections of sessions, and all connections. *)
Definition session_count (n : net) : nat := length (g_sessions (n_mgr n)).
Definition connection_count (n : net) : nat :=
  length (filter in_use (map snd (g_sessions (n_mgr n)) ++ n_left n)).
(** Something is read from or written to the service. *)
Definition io (o : list sobs) : bool := existsb (fun x => match x with Wrote _ | ReadIn _ => true | _ => false end) o.
(** There are never more than [k] sessions. *)
Fixpoint at_most (k : nat) (n : net) (es : list nev) : Prop :=
  match es with
  | [] => (session_count n <= k)%nat
  | e :: es' => (session_count n <= k)%nat /\ at_most k (fst (net_step n e)) es'
  end.
(** The steps of the task of the [i]th removed session *)
Definition own_steps (i : nat) (es : list nev) : list sev :=
  flat_map (fun e => match e with NLeft j t => if Nat.eqb i j then [sev_of t] else [] | NMgr _ => [] end) es.
