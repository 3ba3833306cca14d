(** C11: the factory makes the messages it is asked for. *)
From Coq Require Import NArith List Bool Lia ZifyBool ZifyNat ZifyN.
From Verif.Model Require Import Bytes Service Control.
From Verif.Spec Require Import ControlSpec FactorySpec.
From Verif.Proofs Require Import ControlReaders.
Import ListNotations.
Local Open Scope N_scope.

Lemma low24 s : N.land s 16777215 = s mod 2 ^ 24.
Proof. change 16777215 with (N.ones 24). apply N.land_ones. Qed.

Lemma call_made f c : fst (factory_call f c) = made (f mod 2 ^ 16) c.
Proof.
  destruct c; cbn [factory_call next_id fst made]; unfold mk_data_ack, mk_hup; rewrite ?low24; try reflexivity.
  unfold mk_register, u16. destruct (N.eqb_spec window 0) as [->|H0]; [reflexivity|].
  destruct (N.ltb_spec 65536 window) as [H1|H1].
  - replace (1 <=? window) with true by lia. replace (window <=? 65536) with false by lia. reflexivity.
  - replace (1 <=? window) with true by lia. replace (window <=? 65536) with true by lia. cbn [andb].
    change (2 ^ 16) with 65536. rewrite (N.mod_small (window - 1)) by lia. destruct gateway; reflexivity.
Qed.

Lemma run_made cs : forall i c f, nth_error cs i = Some c ->
  nth_error (factory_run f cs) i = Some (made ((f + N.of_nat (consumed (firstn i cs))) mod 2 ^ 16) c).
Proof.
  induction cs as [|c0 cs IH]; intros i c f H; [destruct i; discriminate|].
  cbn [factory_run]. destruct (factory_call f c0) as [m f'] eqn:E. destruct i as [|i]; cbn [nth_error firstn] in *.
  - injection H as ->. pose proof (call_made f c) as M. rewrite E in M. cbn [fst] in M. rewrite M. unfold consumed. cbn [filter length].
    now rewrite N.add_0_r.
  - rewrite (IH _ _ f' H). f_equal. f_equal.
    pose proof (factory_counter f c0) as Hf. rewrite E in Hf. cbn [snd] in Hf. subst f'.
    unfold consumed. cbn [filter]. destruct (consumes_id c0); [|reflexivity].
    cbn [length]. rewrite <- (mod_mod_div_pow (f + _)), <- (mod_mod_div_pow (_ + _)).
    change (2 ^ 64) with 18446744073709551616. change (2 ^ 16) with 65536. lia.
Qed.
