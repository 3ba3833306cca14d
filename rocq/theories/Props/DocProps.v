(** C126: any saved configuration is either read exactly as it says or refused. *)
From Coq Require Import String NArith ZArith List Bool.
From Verif.Model Require Import Bytes Service Alist SvcTable Mac TableJson Config.
From Verif.Spec Require Import DocSpec.
From Verif.Proofs Require Import DocPf.
Import ListNotations.
Local Open Scope N_scope.
Local Open Scope list_scope.

(** An element of the list of services is read as the service it says, and refused if it says none. *)
Theorem C126_entry : forall aparse now j e, entry_from_json aparse now j = ROk e <-> saved aparse now j e.
Proof. exact entry_spec. Qed.
Print Assumptions C126_entry.
Theorem C126_entry_refused : forall aparse now j, entry_from_json aparse now j = RErr <-> ~ readable aparse now j.
Proof. exact entry_refused. Qed.
Print Assumptions C126_entry_refused.

(** A list that is read becomes a table with exactly the services it lists, each under the first free ID from the one
    it gives, or from its position; it is read if every element can be and there are not too many. *)
Theorem C126_table : forall aparse now j t, table_from_json aparse now j = ROk t -> table_of aparse now j t.
Proof. exact table_read. Qed.
Print Assumptions C126_table.
Theorem C126_accepted : forall aparse now j, (exists t, table_from_json aparse now j = ROk t) <-> fitting aparse now j.
Proof. exact table_accepted. Qed.
Print Assumptions C126_accepted.

(** A document is read if and only if it has a table that is read, and an identity; what is read is what it says. *)
Theorem C126_config : forall aparse uparse now j p, pconfig_from_json aparse uparse now j = ROk p <->
  exists o v, j = JObj o /\ field "svc_table" o v /\ table_from_json aparse now v = ROk (p_table p) /\
    identity_of uparse o (p_uuid p) (p_passwd p) (p_version p).
Proof. exact config_spec. Qed.
Print Assumptions C126_config.

(** Everything else is refused, but for a list with more services than there are IDs: it stops the program. *)
Theorem C126_refused_partial : forall aparse uparse now j, pconfig_from_json aparse uparse now j = RPanic <->
  exists o v, j = JObj o /\ field "svc_table" o v /\ too_many aparse now v.
Proof. exact config_panics. Qed.
Print Assumptions C126_refused_partial.
Theorem C126_refused_refuted : exists j, forall aparse uparse now, pconfig_from_json aparse uparse now j = RPanic.
Proof. exact (ex_intro _ (big_doc 65536) big_panics). Qed.
Print Assumptions C126_refused_refuted.

(** *** Cases: an element without an ID goes to its position, one with the ID of another to the next free ID, and one
    with an unusable ID to the first free ID. *)
Definition case_sa : saddr := {| sa_ip := V4 16909060; sa_port := 80 |}.
Definition case_addr (s : bytes) : option saddr := if beq s (lit "1.2.3.4:80") then Some case_sa else None.
Definition case_el (rest : list (bytes * json)) : json :=
  JObj ([(lit "svc_type", JNum 7); (lit "mac", JStr (lit "00:00:00:00:00:0a")); (lit "address", JStr (lit "1.2.3.4:80"));
         (lit "path", JStr [])] ++ rest).
Definition case_doc : json :=
  JObj [(lit "services", JArr [case_el []; case_el [(lit "id", JNum 1); (lit "active", JBool false); (lit "last_seen", JNum 9)];
                               case_el [(lit "id", JNum 65535)]; case_el [(lit "id", JStr []); (lit "static_svc", JBool true)];
                               case_el [(lit "id", JNum 65535)]])].
Example C126_case : match table_from_json case_addr 5 case_doc with
  | ROk t => map (fun x => (fst x, n_id (snd x), n_static (snd x), n_seen (snd x), n_active (snd x))) (t_map t) =
      [(0, 0, true, 5%Z, true); (1, 1, false, 5%Z, true); (2, 2, false, 9%Z, false); (65535, 65535, false, 5%Z, true);
       (3, 3, true, 5%Z, true); (4, 4, false, 5%Z, true)] /\
      map (fun x => n_svc (snd x)) (tl (t_map t)) = repeat (svc_locked_mjpeg 10 case_sa None) 5
  | _ => False
  end.
Proof. vm_compute. split; reflexivity. Qed.
Example C126_case_refused : table_from_json case_addr 5 (JObj [(lit "services", JArr [JObj []])]) = RErr.
Proof. reflexivity. Qed.
