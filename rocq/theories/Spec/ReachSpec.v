(** From an announced service to the device a CONNECT reaches. *)
From Coq Require Import NArith ZArith List Bool.
From Verif.Model Require Import Bytes Frame Service Control Alist SvcTable Session Manager Client Config.
From Verif.Spec Require Import ControlSpec ClientSpec TableSpec ConfigSpec.
Import ListNotations.
Local Open Scope N_scope.

(** The moments of a table that starts as [t] and goes through [os]. *)
Definition moment (hash : ident -> N) (t : table) (os : list top) (now : table) : Prop :=
  exists os1 os2, os = os1 ++ os2 /\ tbl_run hash t os1 = ROk now.

(** Whenever a connection looks at its table during event [e], it sees a moment of the table. *)
Definition looks_at (P : table -> Prop) (e : kev) : Prop :=
  let sees v := exists t, P t /\ v = view_of t in
  match e with
  | KTick _ v0 v1 v2 => sees v0 /\ sees v1 /\ sees v2
  | KPoll items => forall t en m, In (SMsg t en m) items -> sees (e_table en)
  | _ => True
  end.

(** Scan reports take the IDs from the same table, and their contents are what Rust types and the report format
    allow (see C10). *)
Definition reports_of (P : table -> Prop) (e : kev) : Prop :=
  match e with
  | KPoll items => forall t en m, In (SMsg t en m) items ->
      (exists tb, P tb /\ forall k, tbl_get_id tb k = ROk (e_get_id en k)) /\
      Forall (fun s => wf_service s /\ nul_free_path s /\ svc_is_control s = false) (e_services en) /\
      nlen (e_hosts en) < 2 ^ 32 /\ Forall wf_host (e_hosts en) /\ Forall (fun h => nlen (hr_ports h) < 65536) (e_hosts en) /\
      wf_bytes (m_payload m)
  | _ => True
  end.

(** What the server reads about service [x] in a REGISTER or UPDATE message, or in a SCAN_REPORT. *)
Definition announced_as (b : bytes) (x : entry) : Prop :=
  (exists id r, read_register b = Some (id, r) /\ In x (g_table r)) \/
  (exists id es, read_update b = Some (id, es) /\ In x es).
Definition reported_as (b : bytes) (x : entry) : Prop := exists r, read_report b = Some r /\ In x (rp_services r).

(** The server learnt about [x] from a message of history [h]. *)
Definition learnt (how : bytes -> entry -> Prop) (h : list cobs) (x : entry) : Prop :=
  exists t m, In (XQueue t m) h /\ how (m_payload (amsg_of_cmsg m)) x.

(** A client identity as the Rust types have it. *)
Definition wf_identity (i : identity) : Prop :=
  length (id_uuid i) = 16%nat /\ length (id_key i) = 16%nat /\ id_mac i < 2 ^ 48 /\ no_nul (id_info i).

Definition plain (s : service) : Prop := wf_service s /\ nul_free_path s.

(** The service of identity [k] that was added last. *)
Fixpoint last_service (k : ident) (l : list (Z * service)) (d : option service) : option service :=
  match l with
  | [] => d
  | (_, s) :: l' => last_service k l' (if ident_eq_dec k (to_ident s) then Some s else d)
  end.
