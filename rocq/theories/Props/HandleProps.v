(** C125: the objects of the C interface. *)
From Coq Require Import String NArith List Bool Lia.
From Verif.Model Require Import Bytes Utf8 Alist Handles.
From Verif.Spec Require Import HandleSpec.
From Verif.Proofs Require Import HandlePf.
Import ListNotations.
Local Open Scope N_scope.

(** A program that keeps to the header, read with the three amendments, never reaches undefined behaviour or a panic,
    whatever the addresses it is given: all of its calls return, and the objects there are at the end are those it
    holds. *)
Theorem C125_safe_partial : forall fresh, allocator fresh -> forall cs rs o,
  api_run fresh 0 [] cs = (rs, o) -> obeys Amended [] cs rs ->
  exists b, o = HVal 0 b /\ length rs = length cs /\ tied (holds Amended [] cs rs) b.
Proof. exact safe. Qed.
Print Assumptions C125_safe_partial.

(** A program that has given everything back has left nothing. *)
Theorem C125_no_leak : forall fresh, allocator fresh -> forall cs rs o,
  api_run fresh 0 [] cs = (rs, o) -> obeys Amended [] cs rs -> holds Amended [] cs rs = [] -> o = HVal 0 [].
Proof. exact no_leak. Qed.
Print Assumptions C125_no_leak.

(** Each object is what was asked for, in every run: a client has the configuration and the storage it was made with,
    with the last values set before. *)
Theorem C125_settings : forall fresh, allocator fresh -> forall cs rs b,
  api_run fresh 0 [] cs = (rs, HVal 0 b) ->
  forall p o, alookup p b = Some o -> as_asked (rev (combine cs rs)) p o.
Proof. exact settings. Qed.
Print Assumptions C125_settings.

(** The header as it is written does not do: the logger of a default storage is taken from the program ... *)
Theorem C125_logger_refuted : forall fresh, allocator fresh -> exists cs rs,
  api_run fresh 0 [] cs = (rs, HUndefined) /\ obeys AsWritten [] cs rs /\
  Forall (fun c => Forall (fun s => utf8_valid s = true) (strings c)) cs /\
  Forall (fun x => gives (fst x) = None \/ snd x <> 0) (combine cs rs).
Proof. exact logger_refuted. Qed.
Print Assumptions C125_logger_refuted.

(** ... strings are not checked to be UTF-8 ... *)
Theorem C125_string_refuted : forall fresh, allocator fresh -> exists cs rs,
  api_run fresh 0 [] cs = (rs, HUndefined) /\ obeys AsWritten [] cs rs /\
  Forall (fun c => takes AsWritten c = takes Amended c) cs /\ Forall (fun x => gives (fst x) = None \/ snd x <> 0) (combine cs rs).
Proof. exact string_refuted. Qed.
Print Assumptions C125_string_refuted.

(** ... and a client that could not be made is a null pointer. *)
Theorem C125_null_refuted : forall fresh, allocator fresh -> exists cs rs,
  api_run fresh 0 [] cs = (rs, HUndefined) /\ obeys AsWritten [] cs rs /\
  Forall (fun c => takes AsWritten c = takes Amended c) cs /\ Forall (fun c => Forall (fun s => utf8_valid s = true) (strings c)) cs.
Proof. exact null_refuted. Qed.
Print Assumptions C125_null_refuted.

(** A case: an allocator that reuses addresses, and a program from the making of a logger to the end. *)
Definition first_free (n : N) (l : list N) : N :=
  match find (fun p => negb (existsb (N.eqb p) l)) (map N.of_nat (seq 1 (S (length l)))) with Some p => p | None => 1 end.
Definition lowest (n : N) (l : list N) : N :=
  let p := first_free n l in if (p =? 0) || existsb (N.eqb p) l then 1 + fold_right N.max 0 l else p.
Example C125_allocator : allocator lowest.
Proof.
  intros n l. unfold lowest. cbv zeta. destruct ((first_free n l =? 0) || existsb (N.eqb (first_free n l)) l) eqn:E.
  - assert (M : forall p, In p l -> p <= fold_right N.max 0 l).
    { clear E. induction l as [|x l IH]; cbn [fold_right]; intros p H; [easy|]. destruct H as [->|H]; [lia|]. specialize (IH _ H). lia. }
    split; [lia|]. intros H. apply M in H. lia.
  - apply orb_false_iff in E. destruct E as [Z E]. split; [now apply N.eqb_neq|].
    intros H. assert (X : existsb (N.eqb (first_free n l)) l = true); [|congruence].
    apply existsb_exists. exists (first_free n l). split; [exact H|apply N.eqb_refl].
Qed.
Definition program : list call :=
  [ LoggerNew 7; ConfigNew; LoggerClone 1; ConfigLogger 2 1; ConfigMac 2 (Some 5); ConfigDiscovery 2 true; ConfigMac 2 (Some 6);
    DefaultNew (lit "/etc/arrow.conf"%string) None true; DefaultLogger 1 3; DefaultSet 1 LRtsp (Some (lit "/etc/rtsp"%string));
    DefaultCert 1 (lit "a.pem"%string); DefaultCert 1 (lit "b.pem"%string); DefaultBuild 1;
    ClientNew 2 1 (lit "localhost"%string) true; ClientStart 1; ClientUse 1; ClientTable 1 2; TableCount 3; ServiceUse 3 1 ].
Definition ending : list call := [ TableFree 3; JoinJoin 2; ClientFree 1 ].
Example C125_case :
  fst (api_run lowest 0 [] (program ++ ending)) = [1; 2; 3; 0; 0; 0; 0; 1; 0; 0; 0; 0; 1; 1; 2; 0; 3; 2; 0; 0; 0; 0] /\
  obeys Amended [] (program ++ ending) (fst (api_run lowest 0 [] (program ++ ending))) /\
  holds Amended [] (program ++ ending) (fst (api_run lowest 0 [] (program ++ ending))) = [] /\
  holds Amended [] program (fst (api_run lowest 0 [] program)) = [(3, KTable 2); (2, KJoin); (1, KClient)] /\
  mac_of 2 [(ConfigMac 2 (Some 6), 0); (ConfigDiscovery 2 true, 0); (ConfigMac 2 (Some 5), 0)] = Some 6.
Proof.
  assert (E : fst (api_run lowest 0 [] (program ++ ending)) = [1; 2; 3; 0; 0; 0; 0; 1; 0; 0; 0; 0; 1; 1; 2; 0; 3; 2; 0; 0; 0; 0]) by (vm_compute; reflexivity).
  rewrite E. split; [reflexivity|]. split; [|repeat split; vm_compute; reflexivity].
  clear E. unfold program, ending. cbn [app].
  repeat (split; [unfold allowed; cbn [uses takes table_ok strings amended map fst];
                  split; [|split; [|split; [|split]]];
                  [repeat (apply incl_cons; [cbn; auto|]); apply incl_nil_l
                  |repeat (apply incl_cons; [cbn; auto|]); apply incl_nil_l
                  |repeat (apply NoDup_cons; [cbn; intuition discriminate|]); apply NoDup_nil
                  |first [exact Logic.I | exists 2; cbn; auto; fail | exists 2; split; [cbn; auto|reflexivity]]
                  |intros _; repeat (apply Forall_cons; [vm_compute; reflexivity|]); apply Forall_nil]
                 |match goal with |- obeys _ ?l _ _ => let x := eval vm_compute in l in change l with x | |- True => idtac end]).
  exact Logic.I.
Qed.
