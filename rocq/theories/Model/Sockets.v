(** The network connections of a session manager: those of its sessions, and those whose session it has removed. The
    spawned task of a session (src/net/arrow/session.rs:373-384) holds the context, so it goes on until it notices. *)
From Coq Require Import NArith List Bool.
From Verif.Model Require Import Bytes Frame Service Control Alist Session Manager.
Import ListNotations.
Local Open Scope N_scope.

Record net := { n_mgr : mgr; n_left : list sess }.
Definition net_new (window : N) (gateway : bool) (f : factory) : net := {| n_mgr := mgr_new window gateway f; n_left := [] |}.

(** The context of a session when it is removed: `close` closes it (src/net/arrow/session.rs:574-584); `poll_next` has
    taken the end from it (src/net/arrow/session.rs:687-724). *)
Definition left_state (e : mev) (s : sess) : sess :=
  match e with
  | MClose _ => fst (sess_step s EClose)
  | _ => fst (sess_step s (ETake 0))
  end.
Definition abandoned (g : mgr) (e : mev) (o : list mobs) : list sess :=
  flat_map (fun x => match x with
                     | ORemoved sid | OMsg (EndOf sid _) _ =>
                         match find_sess g sid with Some s => [left_state e s] | None => [] end
                     | _ => []
                     end) o.

(** A step of the manager, or of the task of a removed session. *)
Inductive nev := NMgr (e : mev) | NLeft (i : nat) (t : tev).
Inductive nobs := NManager (o : mobs) | NAbandoned (i : nat) (t : tev) (o : list sobs).

Fixpoint set_nth (i : nat) (s : sess) (l : list sess) : list sess :=
  match l, i with
  | [], _ => []
  | _ :: l', O => s :: l'
  | x :: l', S i' => x :: set_nth i' s l'
  end.

Definition net_step (n : net) (e : nev) : net * list nobs :=
  match e with
  | NMgr e =>
      let '(g, o) := mgr_step (n_mgr n) e in
      ({| n_mgr := g; n_left := n_left n ++ abandoned (n_mgr n) e o |}, map NManager o)
  | NLeft i t =>
      match nth_error (n_left n) i with
      | Some s =>
          let '(s', o) := sess_step s (sev_of t) in
          ({| n_mgr := n_mgr n; n_left := set_nth i s' (n_left n) |}, [NAbandoned i t o])
      | None => (n, [])
      end
  end.
Fixpoint net_run (n : net) (es : list nev) : net * list nobs :=
  match es with
  | [] => (n, [])
  | e :: es' =>
      let '(n1, o1) := net_step n e in
      let '(n2, o2) := net_run n1 es' in
      (n2, o1 ++ o2)
  end.
