(** What the configuration promises. *)
From Coq Require Import NArith ZArith List Bool.
From Verif.Model Require Import Bytes Service Alist SvcTable TableJson Config Client.
From Verif.Spec Require Import TableSpec ClientSpec.
Import ListNotations.
Local Open Scope N_scope.

(** i64 timestamps. *)
Definition timestamp (x : Z) : Prop := (- 2 ^ 63 <= x < 2 ^ 63)%Z.

Section Text.
  Variable aprint : saddr -> bytes.
  Variable aparse : bytes -> option saddr.

  (** Tables that can be saved faithfully. *)
  Definition good (t : table) : Prop :=
    consistent t /\
    (forall id s, stored t id = Some s -> svc_is_control s = false -> savable aprint aparse s) /\
    (forall id x, seen t id = Some x -> timestamp x).

  (** Services and times that keep them so. *)
  Definition good_additions (l : list (Z * service)) : Prop :=
    Forall (fun p => timestamp (fst p) /\ built (snd p) /\ savable aprint aparse (snd p)) l.

  Definition good_config (c : config) : Prop :=
    Forall good (g_heap c) /\ good (g_default c) /\ (g_cur c < length (g_heap c))%nat.

  Definition good_event (e : wevent) : Prop :=
    match e with
    | WStart _ now _ _ l _ => timestamp now /\ good_additions l
    | WScan l _ _ => good_additions l
    | _ => True
    end.
End Text.

(** Events whose writes of the configuration file are never torn. *)
Definition untorn (e : wevent) : Prop :=
  match e with
  | WStart _ _ _ _ _ w | WScan _ _ w | WReset w => w <> Torn
  | WKill => True
  end.

(** No files and no client. *)
Definition blank : world := {| w_config := None; w_skel := None; w_app := None |}.

(** The table changes of one scan. *)
Definition scan_ops (l : list (Z * service)) (now : Z) : list top :=
  map (fun p => TAdd (fst p) (snd p)) l ++ [TRefresh now].

(** The current table. *)
Definition current (c : config) : option table := cell c (g_cur c).

(** Later use of a configuration: scans and resets (a scan that panics leaves it as it was). *)
Inductive cop := CScan (l : list (Z * service)) (now : Z) | CReset.
Definition cfg_step (hash : ident -> N) (c : config) (o : cop) : config :=
  match o with
  | CScan l now => match cfg_update hash c l now with ROk (c', _) => c' | _ => c end
  | CReset => fst (cfg_reset c)
  end.
Definition cfg_run (hash : ident -> N) (c : config) (os : list cop) : config := fold_left (cfg_step hash) os c.

(** What the holder of a table reference reads from it. *)
Definition view_of (t : table) : view :=
  {| v_visible := tbl_visible t; v_version := t_vversion t; v_get := tbl_get t |}.

(** During event [e] of a connection, the captured reference [h] of configuration [c] was read. *)
Definition reads (c : config) (h : nat) (e : kev) : Prop :=
  exists t, cell c h = Some t /\ only_sees (view_of t) e.
