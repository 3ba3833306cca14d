(** State changes of the application and its listeners. *)
From Coq Require Import NArith List Bool.
From Verif.Model Require Import MainTask.
Import ListNotations.
Local Open Scope N_scope.

(** A new connection state or scanner state. *)
Inductive change := ChConnection (s : cstate) | ChScanner (s : bool).

(** A call of `set_connection_state` or `set_scanning` that has changed the state and taken the
    listeners (src/context.rs:248-268, 316-336): those to be notified yet and those notified. *)
Record call := { cl_change : change; cl_todo : list N; cl_done : list N }.

(** The application context: states, listeners (numbers) and the calls going on, in any number of
    threads. Calls keep their number. *)
Record appctx := {
  a_connection : cstate;
  a_scanning : bool;
  a_listeners : list N;
  a_calls : list (option call)
}.

(** src/context.rs:77-86 *)
Definition appctx_new : appctx := {| a_connection := Disconnected; a_scanning := false; a_listeners := []; a_calls := [] |}.

Inductive eobs :=
| AChange (c : change)            (* the state changes *)
| AAdded (l : N)                  (* a listener is registered *)
| ANotified (l : N) (c : change)  (* a listener is called *)
| AReturned.                      (* a call that changed the state returns *)

(** [EvSet]: the first critical section of a call; [EvNotify n]: call number [n] calls its next listener;
    [EvReturn n]: its second critical section, after the last listener; [EvAdd]: `add_event_listener`. *)
Inductive aev := EvSet (c : change) | EvNotify (n : nat) | EvReturn (n : nat) | EvAdd (l : N).

Definition unchanged (a : appctx) (c : change) : bool :=
  match c with ChConnection s => cstate_eqb s (a_connection a) | ChScanner s => eqb s (a_scanning a) end.

Fixpoint update_nth {A} (n : nat) (x : A) (l : list A) : list A :=
  match l, n with
  | [], _ => []
  | _ :: l', O => x :: l'
  | y :: l', S n' => y :: update_nth n' x l'
  end.

Definition app_step (a : appctx) (e : aev) : appctx * list eobs :=
  match e with
  | EvSet c =>
      if unchanged a c then (a, [])
      else
        ({| a_connection := match c with ChConnection s => s | _ => a_connection a end;
            a_scanning := match c with ChScanner s => s | _ => a_scanning a end;
            a_listeners := [];
            a_calls := a_calls a ++ [Some {| cl_change := c; cl_todo := a_listeners a; cl_done := [] |}] |}, [AChange c])
  | EvNotify n =>
      match nth_error (a_calls a) n with
      | Some (Some k) =>
          match cl_todo k with
          | l :: todo =>
              ({| a_connection := a_connection a; a_scanning := a_scanning a; a_listeners := a_listeners a;
                  a_calls := update_nth n (Some {| cl_change := cl_change k; cl_todo := todo; cl_done := cl_done k ++ [l] |}) (a_calls a) |},
               [ANotified l (cl_change k)])
          | [] => (a, [])
          end
      | _ => (a, [])
      end
  | EvReturn n =>
      match nth_error (a_calls a) n with
      | Some (Some k) =>
          match cl_todo k with
          | [] =>
              ({| a_connection := a_connection a; a_scanning := a_scanning a; a_listeners := cl_done k ++ a_listeners a;
                  a_calls := update_nth n None (a_calls a) |}, [AReturned])
          | _ => (a, [])
          end
      | _ => (a, [])
      end
  | EvAdd l =>
      ({| a_connection := a_connection a; a_scanning := a_scanning a; a_listeners := a_listeners a ++ [l];
          a_calls := a_calls a |}, [AAdded l])
  end.

Fixpoint app_run (a : appctx) (es : list aev) : appctx * list eobs :=
  match es with
  | [] => (a, [])
  | e :: es' =>
      let '(a1, o1) := app_step a e in
      let '(a2, o2) := app_run a1 es' in
      (a2, o1 ++ o2)
  end.
