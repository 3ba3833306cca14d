(** Properties of the hash of service identifiers. *)
From Coq Require Import NArith ZArith List Bool.
From Verif.Model Require Import Bytes Service Alist SvcTable Utf8 StableHash.
From Verif.Spec Require Import HashSpec TableSpec.
From Verif.Proofs Require Import HashPf.
Import ListNotations.
Local Open Scope N_scope.

(** C107: different identities are hashed as different texts, none of which begins another one. *)
Theorem C107_injective :
  forall (width : nat) (big : bool) (a b : ident),
    ident_ok a -> ident_ok b -> prefix (hash_input width big a) (hash_input width big b) -> a = b.
Proof. exact input_prefix. Qed.
Print Assumptions C107_injective.

(** The text itself (little-endian), which decides the ID of a new service. *)
Theorem C107_text :
  forall (width : nat) (k : ident), ident_ok k ->
    exists n, nth_error type_order n = Some (i_type k) /\ hash_input width false k = identity_text (N.of_nat n) k.
Proof. exact input_text. Qed.
Print Assumptions C107_text.

Example C107_injective_case :
  ident_ok cam_ident /\
  hash_input 8 false cam_ident =
    [1; 0; 0; 0; 1; 0; 0; 0; 6; 0; 0; 0; 1; 2; 3; 4; 5; 255; 1; 0; 0; 0; 42; 2; 1; 0; 0; 0; 47; 195; 169; 255].
Proof. split; [exact cam_ok|vm_compute; reflexivity]. Qed.

(** C108: machines with 32-bit and 64-bit pointers keep the same tables. *)
Theorem C108_width_partial :
  forall (fp : bytes -> N) (width width' : nat) (big : bool) (os : list top) (t : table),
    tbl_run (stable_hash fp width big) t os = tbl_run (stable_hash fp width' big) t os.
Proof. exact run_width. Qed.
Print Assumptions C108_width_partial.

(** The ID of a new service is the low half-word of the hash of its identity unless it is taken. *)
Theorem C108_id_partial :
  forall (fp : bytes -> N) (width : nat) (big : bool) (now : Z) (t : table) (s : service) (static enabled : bool),
    let id := fp (hash_input width big (to_ident s)) mod 2 ^ 16 in
    ilookup (to_ident s) (t_idents t) = None -> alookup id (t_map t) = None ->
    exists t', tbl_update (stable_hash fp width big) now t s static enabled = ROk (id, t').
Proof. intros fp width big now t s static enabled. exact (new_id (stable_hash fp width big) now t s static enabled). Qed.
Print Assumptions C108_id_partial.

Example C108_id_case :
  let s := svc_rtsp 7 {| sa_ip := V4 9; sa_port := 80 |} [47] in
  exists t', tbl_update (stable_hash (fun b => of_be b) 8 false) 5%Z (table_new 0) s false true = ROk (0x2fff, t').
Proof. eexists. vm_compute. reflexivity. Qed.

(** Machines of different byte order hash different texts for every device. *)
Theorem C108_refuted :
  forall (width : nat) (k : ident), (exists m, i_mac k = Some m) -> hash_input width true k <> hash_input width false k.
Proof. exact input_endian. Qed.
Print Assumptions C108_refuted.

Example C108_refuted_case : exists m, i_mac cam_ident = Some m.
Proof. eexists. reflexivity. Qed.
