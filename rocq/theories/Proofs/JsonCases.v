(** JSON documents in messages, and a counterexample. *)
From Coq Require Import String NArith ZArith ZifyBool ZifyNat ZifyN List Bool Lia Permutation.
From Verif.Model Require Import Bytes Service Control TableJson JsonText.
From Verif.Spec Require Import ControlSpec JsonSpec.
From Verif.Proofs Require Import JsonPf ControlReaders.
Import ListNotations.
Local Open Scope N_scope.

Lemma number_prefix : exists j a x z, jdump j = a ++ x /\ x <> [] /\ jread a = Some z /\ z <> j.
Proof. exists (JNum 12), [49], [50], (JNum 1). split; [reflexivity|]. split; [discriminate|]. split; [reflexivity|discriminate]. Qed.

Lemma info_recovered id uuid key mac window gateway svcs ver category type vendor m :
  id < 2 ^ 16 -> List.length uuid = 16%nat -> List.length key = 16%nat -> mac < 2 ^ 48 ->
  NoDup (map fst svcs) -> Forall wf_entry svcs -> Forall (fun e => nul_free_path (snd e)) svcs ->
  mk_register id uuid key mac window gateway (table_of_services svcs) (jdump (extended_info ver category type vendor)) = ROk m ->
  exists g, read_register (cmsg_encode m) = Some (id, g) /\
    exists o, jread (g_info g) = Some (JObj o) /\
      exists d, field_of (lit "device") o = Some (JObj d) /\
        field_of (lit "category") d = Some (opt_str category) /\
        field_of (lit "type") d = Some (opt_str type) /\
        field_of (lit "vendor") d = Some (opt_str vendor) /\
      exists c, field_of (lit "client") o = Some (JObj c) /\ field_of (lit "id") c = Some (JStr (lit "arrow-client")) /\
        field_of (lit "version") c = Some (JStr ver) /\ field_of (lit "vendor") c = Some (JStr (lit "angelcam")).
Proof.
  intros H1 H2 H3 H4 H5 H6 H7 H8.
  destruct (register_recovered id uuid key mac window gateway svcs (table_of_services svcs) (jdump (extended_info ver category type vendor)) m H1 H2 H3 H4) as [e [R _]]; auto.
  - unfold no_nul. pose proof (dump_visible (extended_info ver category type vendor)) as V. rewrite Forall_forall in V. intros X. specialize (V 0 X). unfold visible_byte in V. lia.
  - eexists. split; [exact R|]. cbn [g_info]. rewrite dump_jread. eexists. split; [reflexivity|]. eexists. split; [reflexivity|]. do 3 (split; [reflexivity|]).
    eexists. split; [reflexivity|]. repeat split; reflexivity.
Qed.
