(** Proofs about the hash of service identifiers. *)
From Coq Require Import NArith ZArith List Bool Lia ZifyBool ZifyNat ZifyN.
From Verif.Model Require Import Bytes Service Alist SvcTable Utf8 StableHash.
From Verif.Spec Require Import HashSpec TableSpec.
From Verif.Proofs Require Import BytesFacts.
Import ListNotations.
Local Open Scope N_scope.

Lemma utf8_no_ff n : forall s, (length s <= n)%nat -> utf8_valid s = true -> ~ In 255 s.
Proof.
  induction n as [|n IH]; intros s Hl H.
  - destruct s; [intros []|cbn in Hl; lia].
  - destruct s as [|b0 t0]; [intros []|]. cbn [length] in Hl. cbn [utf8_valid] in H.
    destruct (N.leb_spec b0 127) as [L|L].
    { intros [->|Hi]; [lia|]. apply (IH t0); auto; lia. }
    destruct (between 194 223 b0) eqn:E2.
    { destruct t0 as [|b1 t1]; [discriminate|]. apply andb_true_iff in H as [H1 H2]. cbn [length] in Hl.
      unfold cont, between in *. intros [->|[->|Hi]]; [lia|lia|]. apply (IH t1); auto; lia. }
    destruct (between 224 239 b0) eqn:E3.
    { destruct t0 as [|b1 [|b2 t2]]; try discriminate. apply andb_true_iff in H as [H H2].
      apply andb_true_iff in H as [H0 H1]. cbn [length] in Hl.
      unfold cont, between in *.
      intros [->|[->|[->|Hi]]]; [lia| |lia|apply (IH t2); auto; lia].
      destruct (b0 =? 224); [lia|]. destruct (b0 =? 237); lia. }
    destruct (between 240 244 b0) eqn:E4; [|discriminate].
    destruct t0 as [|b1 [|b2 [|b3 t3]]]; try discriminate. apply andb_true_iff in H as [H H2].
    apply andb_true_iff in H as [H H1]. apply andb_true_iff in H as [H0 H3]. cbn [length] in Hl.
    unfold cont, between in *.
    intros [->|[->|[->|[->|Hi]]]]; [lia| |lia|lia|apply (IH t3); auto; lia].
    destruct (b0 =? 240); [lia|]. destruct (b0 =? 244); lia.
Qed.

Lemma app_len_inj {A : Type} (a b x y : list A) : length a = length b -> a ++ x = b ++ y -> a = b /\ x = y.
Proof.
  revert b. induction a as [|u a IH]; intros [|v b] Hl H; cbn in Hl; try discriminate; [auto|].
  cbn in H. injection H as -> H. injection Hl as Hl. destruct (IH b Hl H) as [-> ->]. auto.
Qed.

Lemma ff_inj : forall (a b x y : bytes), ~ In 255 a -> ~ In 255 b -> a ++ 255 :: x = b ++ 255 :: y -> a = b /\ x = y.
Proof.
  induction a as [|u a IH]; intros [|v b] x y Ha Hb H; cbn in H.
  - injection H as ->. auto.
  - injection H as E _. exfalso. apply Hb. left. auto.
  - injection H as E _. exfalso. apply Ha. left. auto.
  - injection H as -> H. destruct (IH b x y) as [-> ->]; auto.
    + intros Hi. apply Ha. right. exact Hi.
    + intros Hi. apply Hb. right. exact Hi.
Qed.

Lemma ne_length big k n : length (ne_bytes big k n) = k.
Proof. unfold ne_bytes. destruct big; [apply to_be_length|]. rewrite rev_length. apply to_be_length. Qed.

Lemma ne_inj big k m n x y : m < 256 ^ N.of_nat k -> n < 256 ^ N.of_nat k ->
  ne_bytes big k m ++ x = ne_bytes big k n ++ y -> m = n /\ x = y.
Proof.
  intros Hm Hn H. apply app_len_inj in H as [H ->]; [|now rewrite !ne_length].
  split; [|reflexivity]. unfold ne_bytes in H. destruct big.
  - apply (to_be_inj k); auto.
  - apply (to_be_inj k); auto. apply (f_equal (@rev N)) in H. rewrite !rev_involutive in H. exact H.
Qed.

Lemma discr_inj a b : svc_discr a = svc_discr b -> a = b.
Proof. destruct a, b; cbn; intros H; try reflexivity; discriminate. Qed.

Lemma discr_small a : svc_discr a < 256 ^ N.of_nat 4.
Proof. destruct a; reflexivity. Qed.

Lemma ne1 big : ne_bytes big 1 255 = [255].
Proof. destruct big; reflexivity. Qed.

Definition enc_opt {A : Type} (w : nat) (big : bool) (h : A -> list hcall) (o : option A) : bytes :=
  flat_map (hcall_bytes w big) (hash_option h o).

Lemma enc_some {A : Type} w big (h : A -> list hcall) v :
  enc_opt w big h (Some v) = ne_bytes big 4 1 ++ flat_map (hcall_bytes w big) (h v).
Proof. reflexivity. Qed.
Lemma enc_none {A : Type} w big (h : A -> list hcall) : enc_opt w big h None = ne_bytes big 4 0 ++ [].
Proof. reflexivity. Qed.

Lemma opt_inj {A : Type} w big (h : A -> list hcall) (P : A -> Prop) :
  (forall a b x y, P a -> P b ->
     flat_map (hcall_bytes w big) (h a) ++ x = flat_map (hcall_bytes w big) (h b) ++ y -> a = b /\ x = y) ->
  forall o p x y, (forall a, o = Some a -> P a) -> (forall a, p = Some a -> P a) ->
    enc_opt w big h o ++ x = enc_opt w big h p ++ y -> o = p /\ x = y.
Proof.
  intros Hh [a|] [b|] x y Ha Hb H; rewrite ?enc_some, ?enc_none, <- !app_assoc in H;
    apply ne_inj in H as [E H]; try reflexivity; try discriminate E.
  - destruct (Hh a b x y) as [-> ->]; auto.
  - cbn in H. auto.
Qed.

Lemma mac_inj w big a b x y : a < 2 ^ 48 -> b < 2 ^ 48 ->
  flat_map (hcall_bytes w big) (hash_mac a) ++ x = flat_map (hcall_bytes w big) (hash_mac b) ++ y -> a = b /\ x = y.
Proof.
  intros Ha Hb H. unfold hash_mac in H. cbn [flat_map hcall_bytes] in H. rewrite <- !app_assoc in H.
  apply ne_inj in H as [_ H]; try reflexivity. cbn [app] in H.
  apply app_len_inj in H as [H ->]; [|now rewrite !to_be_length].
  split; [|reflexivity]. apply (to_be_inj 6); auto.
Qed.

Lemma port_inj w big a b x y : a < 2 ^ 16 -> b < 2 ^ 16 ->
  flat_map (hcall_bytes w big) (hash_port a) ++ x = flat_map (hcall_bytes w big) (hash_port b) ++ y -> a = b /\ x = y.
Proof.
  intros Ha Hb H. unfold hash_port in H. cbn [flat_map hcall_bytes] in H. rewrite <- !app_assoc in H.
  apply ne_inj in H as [-> H]; auto.
Qed.

Lemma string_inj w big a b x y : utf8_valid a = true -> utf8_valid b = true ->
  flat_map (hcall_bytes w big) (hash_string a) ++ x = flat_map (hcall_bytes w big) (hash_string b) ++ y -> a = b /\ x = y.
Proof.
  intros Ha Hb H. unfold hash_string in H. cbn [flat_map hcall_bytes] in H. rewrite ne1 in H.
  rewrite <- !app_assoc in H. cbn [app] in H.
  apply ff_inj in H; auto; eapply utf8_no_ff; eauto.
Qed.

Lemma input_parts w big k : hash_input w big k =
  ne_bytes big 4 (svc_discr (i_type k)) ++ enc_opt w big hash_mac (i_mac k) ++ enc_opt w big hash_port (i_port k)
    ++ enc_opt w big hash_string (i_path k).
Proof. unfold hash_input, hash_ident, enc_opt. rewrite !flat_map_app. cbn [hash_type flat_map hcall_bytes]. now rewrite app_nil_r. Qed.

Lemma input_inj w big a b x y : ident_ok a -> ident_ok b ->
  hash_input w big a ++ x = hash_input w big b ++ y -> a = b /\ x = y.
Proof.
  intros (A1 & A2 & A3) (B1 & B2 & B3) H. rewrite !input_parts, <- !app_assoc in H.
  apply ne_inj in H as [Et H]; try apply discr_small. apply discr_inj in Et.
  apply (opt_inj w big hash_mac (fun m => m < 2 ^ 48)) in H as [Em H]; auto; [|intros; eapply mac_inj; eauto].
  apply (opt_inj w big hash_port (fun m => m < 2 ^ 16)) in H as [Ep H]; auto; [|intros; eapply port_inj; eauto].
  apply (opt_inj w big hash_string (fun m => utf8_valid m = true)) in H as [Es H]; auto;
    [|intros; eapply string_inj; eauto].
  split; [|exact H]. destruct a, b; cbn in *; congruence.
Qed.

Lemma input_prefix w big a b : ident_ok a -> ident_ok b -> prefix (hash_input w big a) (hash_input w big b) -> a = b.
Proof.
  intros Ha Hb [c E]. rewrite <- (app_nil_r (hash_input w big b)) in E.
  symmetry in E. exact (proj1 (input_inj w big a b c [] Ha Hb E)).
Qed.

(** No call depends on the pointer width. *)
Lemma input_width w w' big k : hash_input w big k = hash_input w' big k.
Proof. rewrite !input_parts. destruct (i_mac k), (i_port k), (i_path k); reflexivity. Qed.

(** Tables depend on the hash through its values only. *)
Lemma run_hash_ext h h' : (forall k, h k = h' k) -> forall os t, tbl_run h t os = tbl_run h' t os.
Proof.
  intros E. induction os as [|o os IH]; intros t; [reflexivity|].
  assert (S : tbl_step h t o = tbl_step h' t o).
  { destruct o; cbn [tbl_step]; try reflexivity; unfold tbl_add, tbl_add_static, tbl_update, add_service; now rewrite E. }
  cbn [tbl_run]. rewrite S. destruct (tbl_step h' t o); auto.
Qed.

Lemma run_width fp w w' big os t : tbl_run (stable_hash fp w big) t os = tbl_run (stable_hash fp w' big) t os.
Proof. apply run_hash_ext. intros k. unfold stable_hash. now rewrite (input_width w w'). Qed.

(** The ID of a new service. *)
Lemma new_id hash now t s static enabled :
  ilookup (to_ident s) (t_idents t) = None -> alookup (u16 (hash (to_ident s))) (t_map t) = None ->
  exists t', tbl_update hash now t s static enabled = ROk (u16 (hash (to_ident s)), t').
Proof.
  intros H1 H2. unfold tbl_update. rewrite H1. unfold add_service. rewrite H1. cbv zeta.
  unfold add_element, add_element_fuel.
  assert (F : exists f, N.to_nat (2 ^ 16) = S f).
  { exists (Nat.pred (N.to_nat (2 ^ 16))). rewrite Nat.succ_pred; [reflexivity|]. lia. }
  destruct F as [f F]. rewrite F. clear F. cbn [probe with_versions t_map entry_new n_id]. rewrite H2. eauto.
Qed.

(** The byte order shows. *)
Lemma input_endian w k : (exists m, i_mac k = Some m) ->
  hash_input w true k <> hash_input w false k.
Proof.
  intros [m Hm] H. rewrite !input_parts in H.
  apply app_len_inj in H as [_ H]; [|now rewrite !ne_length].
  rewrite Hm in H. rewrite !enc_some, <- !app_assoc in H. apply app_len_inj in H as [H _]; [|now rewrite !ne_length].
  vm_compute in H. discriminate.
Qed.

Definition cam_ident : ident := {| i_type := RTSP; i_mac := Some 0x0102030405ff; i_port := Some 554; i_path := Some [47; 195; 169] |}.

Lemma cam_ok : ident_ok cam_ident.
Proof.
  split; [|split]; intros x E; injection E as <-; reflexivity.
Qed.

Lemma mac_text m : to_be 6 m = map (fun i => m / 256 ^ i mod 256) [5; 4; 3; 2; 1; 0].
Proof.
  cbn [to_be map app]. rewrite !N.div_div by discriminate. repeat f_equal; try (rewrite N.pow_0_r, N.div_1_r); reflexivity.
Qed.
Lemma input_text width k : ident_ok k ->
  exists n, nth_error type_order n = Some (i_type k) /\ hash_input width false k = identity_text (N.of_nat n) k.
Proof.
  intros (_ & Hp & _). destruct k as [ty mac port path]. cbn [i_type i_mac i_port i_path] in *.
  exists (N.to_nat (svc_discr ty)). split; [destruct ty; reflexivity|]. rewrite N2Nat.id.
  unfold hash_input, hash_ident, identity_text. cbn [i_type i_mac i_port i_path]. rewrite !flat_map_app. f_equal; [destruct ty; reflexivity|].
  f_equal; [destruct mac as [m|]; [|reflexivity]; cbn [hash_option hash_mac flat_map hcall_bytes optional_text]; rewrite <- mac_text; rewrite app_nil_r; reflexivity|].
  f_equal.
  - destruct port as [p|]; [|reflexivity]. specialize (Hp p eq_refl).
    unfold hash_option, hash_port, optional_text, flat_map. rewrite app_nil_r. f_equal.
    unfold hcall_bytes. cbn. rewrite (N.mod_small (p / 256) 256); [reflexivity|]. apply N.div_lt_upper_bound; [discriminate|]. exact Hp.
  - destruct path as [s|]; [|reflexivity]. cbn. reflexivity.
Qed.
