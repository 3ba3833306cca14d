(** A client of the C interface with the runtime it is run by. *)
From Coq Require Import NArith ZArith List Bool.
From Verif.Model Require Import Client Background.
Import ListNotations.
Local Open Scope N_scope.

(** The task of the client has not been started (src/exports/mod.rs:136-139, `task: Some(_)`), is run by
    src/runtime.rs:19-43, or is over. *)
Inductive rphase := RReady | RRunning | ROver.

(** src/exports/mod.rs:115-119, `NativeArrowClient`, with everything the client started. *)
Record host := {
  h_bg : bg;
  h_run : rphase;
  h_freed : bool
}.

(** src/exports/mod.rs:121-145, `ac__arrow_client__new` *)
Definition host_new (feature discovery : bool) : host :=
  {| h_bg := bg_new feature discovery; h_run := RReady; h_freed := false |}.

(** [RStart]: `ac__arrow_client__start` or `ac__arrow_client__start_blocking` (src/exports/mod.rs:153-180);
    [RBg]: something happens to the client; [REnd]: `block_on` returns and the runtime is dropped, which
    drops the tasks spawned on it (src/client.rs:328-329) wherever they are (a join handle or a blocking
    start returns after this); [RFree]: `ac__arrow_client__free` (src/exports/mod.rs:147-151). *)
Inductive rev :=
| RStart
| RBg (e : bev)
| REnd
| RFree.

(** The client is used only while it has not been freed; the tasks run only while the runtime does. A
    thread needs nobody. *)
Definition possible (x : host) (e : bev) : bool :=
  match e with
  | EvApi _ | EvClose => negb (h_freed x)
  | EvServer _ | EvTimer | EvHandle _ | EvMain | EvPeriodic => match h_run x with RRunning => true | _ => false end
  | EvThread _ _ => true
  end.

(** Dropping the tasks: the command handler goes with the receiver of the command channel, with the events
    in it and with the join handle of the scanner thread, which goes on (src/cmd_handler.rs:84-91, 179-201). *)
Definition drop_tasks (b : bg) : bg :=
  set_tasks (set_queue (set_scanner b (b_last b) None) []) (b_client b) TkEnded TkEnded false.

(** src/client.rs:418-436, `close`, by dropping the client; a task that was not started goes, too. *)
Definition free (x : host) : host :=
  let b := fst (bg_step (h_bg x) EvClose) in
  match h_run x with
  | RReady => {| h_bg := drop_tasks b; h_run := ROver; h_freed := true |}
  | r => {| h_bg := b; h_run := r; h_freed := true |}
  end.

Definition host_step (x : host) (e : rev) : host * list bobs :=
  match e with
  | RStart =>
      match h_run x with
      | RReady => if h_freed x then (x, []) else ({| h_bg := h_bg x; h_run := RRunning; h_freed := h_freed x |}, [])
      | _ => (x, [])
      end
  | RBg e =>
      if possible x e then let '(b, o) := bg_step (h_bg x) e in ({| h_bg := b; h_run := h_run x; h_freed := h_freed x |}, o)
      else (x, [])
  | REnd =>
      match h_run x, b_main (h_bg x) with
      | RRunning, TkEnded => ({| h_bg := drop_tasks (h_bg x); h_run := ROver; h_freed := h_freed x |}, [])
      | _, _ => (x, [])
      end
  | RFree => (if h_freed x then x else free x, [])
  end.

Fixpoint host_run (x : host) (es : list rev) : host * list bobs :=
  match es with
  | [] => (x, [])
  | e :: es' =>
      let '(x1, o1) := host_step x e in
      let '(x2, o2) := host_run x1 es' in
      (x2, o1 ++ o2)
  end.

(** A whole history. *)
Definition hosted (feature discovery : bool) (es : list rev) : host * list bobs := host_run (host_new feature discovery) es.
