(** MAC addresses and service tables survive their textual forms. *)
From Coq Require Import NArith ZArith List Bool Lia String.
From Coq Require Import ZifyBool ZifyNat ZifyN.
From Verif.Model Require Import Bytes Service Alist SvcTable Text Mac TableJson.
From Verif.Spec Require Import TableSpec.
From Verif.Proofs Require Import BytesFacts AlistFacts TableProofs TablePropsPf TableExpiry.
Import ListNotations.
Local Open Scope N_scope.
Local Open Scope list_scope.
Ltac Zify.zify_post_hook ::= Z.div_mod_to_equations.

(** ** Text *)

Lemma split_none c s : ~ In c s -> split_on c s = [s].
Proof.
  induction s as [|b s IH]; cbn [split_on]; intros H; [reflexivity|].
  destruct (N.eqb_spec b c) as [->|]; [exfalso; apply H; now left|].
  rewrite IH; [reflexivity|]. intros Hi. apply H. now right.
Qed.

Lemma split_app c s r : ~ In c s -> split_on c (s ++ c :: r) = s :: split_on c r.
Proof.
  induction s as [|b s IH]; cbn [app split_on]; intros H; [now rewrite N.eqb_refl|].
  destruct (N.eqb_spec b c) as [->|]; [exfalso; apply H; now left|].
  rewrite IH; [reflexivity|]. intros Hi. apply H. now right.
Qed.

Lemma split_join c l : l <> [] -> Forall (fun p => ~ In c p) l -> split_on c (join [c] l) = l.
Proof.
  induction l as [|p l IH]; intros Hn Hf; [contradiction|]. inversion Hf; subst. cbn [join].
  destruct l as [|q l]; [now apply split_none|]. cbn [app]. rewrite split_app by auto. f_equal. apply IH; [discriminate|auto].
Qed.

Lemma hex_digit_val d : d < 16 -> digit_val 16 (hex_digit d) = Some d.
Proof.
  intros H. unfold hex_digit, digit_val. destruct (d <? 10) eqn:E.
  - replace ((48 <=? 48 + d) && (48 + d <=? 57)) with true by lia.
    replace (48 + d - 48) with d by lia. replace (d <? 16) with true by lia. reflexivity.
  - replace ((48 <=? 87 + d) && (87 + d <=? 57)) with false by lia.
    replace ((97 <=? 87 + d) && (87 + d <=? 122)) with true by lia.
    replace (87 + d - 87) with d by lia. replace (d <? 16) with true by lia. reflexivity.
Qed.

Lemma hex_digit_range d : d < 16 -> hex_digit d <> 58 /\ hex_digit d <> 43.
Proof. unfold hex_digit. intros H. destruct (d <? 10) eqn:E; lia. Qed.

Lemma parse_uint_plain radix max c r : c <> 43 ->
  parse_uint radix max (c :: r) = match digits_val radix (c :: r) 0 with Some v => if v <=? max then Some v else None | None => None end.
Proof.
  intros Hn. unfold parse_uint. cbv zeta.
  destruct c as [|p]; [reflexivity|]. do 6 (destruct p as [p|p|]; try reflexivity). contradiction.
Qed.

Lemma hex2_parse b : b < 256 -> parse_uint 16 255 (hex2 b) = Some b.
Proof.
  intros H. assert (H1 : b / 16 < 16) by lia. assert (H2 : b mod 16 < 16) by lia.
  unfold hex2. rewrite parse_uint_plain by apply (hex_digit_range _ H1).
  cbn [digits_val]. rewrite !hex_digit_val by auto.
  replace ((0 * 16 + b / 16) * 16 + b mod 16) with b by lia. replace (b <=? 255) with true by lia. reflexivity.
Qed.

Lemma all_some_map {A B} (f : A -> option B) (g : A -> B) l : (forall x, In x l -> f x = Some (g x)) ->
  all_some (map f l) = Some (map g l).
Proof.
  induction l as [|a l IH]; cbn [map all_some]; intros H; [reflexivity|].
  rewrite H by now left. rewrite IH; [reflexivity|]. intros x Hx. apply H. now right.
Qed.

Lemma mac_roundtrip m : m < 2 ^ 48 -> mac_parse (mac_print m) = Some m.
Proof.
  intros H. unfold mac_parse, mac_print.
  assert (Hb : Forall (fun b => b < 256) (to_be 6 m)) by apply to_be_wf.
  rewrite split_join.
  - replace (N.eqb _ 6) with true by (unfold nlen; rewrite !map_length, to_be_length; reflexivity).
    rewrite map_map.
    rewrite (all_some_map _ (fun x => x)), map_id.
    + f_equal. apply of_be_to_be_small. exact H.
    + intros x Hx. apply hex2_parse. rewrite Forall_forall in Hb. auto.
  - intros E. apply (f_equal (@List.length bytes)) in E. rewrite map_length, to_be_length in E. discriminate.
  - rewrite Forall_map. eapply Forall_impl; [|exact Hb]. cbv beta. intros b Hlt.
    intros [E|[E|[]]].
    + apply (proj1 (hex_digit_range (b / 16) ltac:(lia))). exact E.
    + apply (proj1 (hex_digit_range (b mod 16) ltac:(lia))). exact E.
Qed.

Lemma all_some_in {A} (l : list (option A)) r x : all_some l = Some r -> In x r -> In (Some x) l.
Proof.
  revert r. induction l as [|[a|] l IH]; cbn [all_some]; intros r H Hx; try discriminate.
  - injection H as <-. contradiction.
  - destruct (all_some l) as [r'|] eqn:E; [|discriminate]. injection H as <-.
    destruct Hx as [->|Hx]; [now left|right]. eauto.
Qed.
Lemma all_some_length {A} (l : list (option A)) r : all_some l = Some r -> List.length r = List.length l.
Proof.
  revert r. induction l as [|[a|] l IH]; cbn [all_some]; intros r H; try discriminate; [now injection H as <-|].
  destruct (all_some l) eqn:E; [|discriminate]. injection H as <-. cbn. f_equal. auto.
Qed.

Lemma parse_uint_max radix max s v : parse_uint radix max s = Some v -> v <= max.
Proof.
  unfold parse_uint. cbv zeta. destruct (match s with 43 :: (_ :: _) as r => r | _ => s end); [discriminate|].
  destruct (digits_val _ _ _) as [w|]; [|discriminate]. destruct (w <=? max) eqn:E; [|discriminate]. intros [= <-]. lia.
Qed.

Lemma mac_parse_range s m : mac_parse s = Some m -> m < 2 ^ 48.
Proof.
  unfold mac_parse. destruct (N.eqb _ 6) eqn:E; [|discriminate]. destruct (all_some _) as [l|] eqn:El; [|discriminate].
  intros [= <-].
  assert (Hw : wf_bytes l).
  { apply Forall_forall. intros x Hx. apply (all_some_in _ _ _ El) in Hx. apply in_map_iff in Hx as (p & Hp & _).
    apply parse_uint_max in Hp. lia. }
  apply all_some_length in El. unfold nlen in E. pose proof (of_be_bound l Hw) as Hb.
  rewrite El in Hb. replace (List.length (map (parse_uint 16 255) (split_on 58 s))) with 6%nat in Hb by lia. exact Hb.
Qed.

(** ** Entries *)

Section Json.
  Variable aprint : saddr -> bytes.
  Variable aparse : bytes -> option saddr.
  Notation savable := (savable aprint aparse).

  Definition disabled (e : entry) : entry :=
    {| n_id := n_id e; n_svc := n_svc e; n_static := n_static e; n_enabled := false; n_seen := n_seen e; n_active := n_active e |}.

  Lemma service_roundtrip s : built s -> svc_is_control s = false -> savable s ->
    service_of (svc_code (s_type s)) (mac_parse (mac_print (or_else (s_mac s) 0)))
      (aparse (aprint (or_else (s_addr s) {| sa_ip := V4 0; sa_port := 0 |}))) (or_else (s_path s) []) = Some s.
  Proof.
    intros Hb Hc (Hm & Ha & Hp).
    destruct Hb; try discriminate Hc; cbn [svc_rtsp svc_locked_rtsp svc_unknown_rtsp svc_unsupported_rtsp svc_http svc_mjpeg svc_locked_mjpeg svc_tcp
      s_mac s_addr s_path s_type or_else svc_code] in *;
      rewrite (mac_roundtrip m) by (apply Hm; reflexivity); rewrite (Ha a eq_refl); unfold service_of; cbv zeta;
      repeat (match goal with |- context [N.eqb ?x ?y] => replace (N.eqb x y) with true by reflexivity || replace (N.eqb x y) with false by reflexivity end; cbv iota);
      try reflexivity; try (destruct p; reflexivity).
    - destruct p as [[|]|]; cbn [or_else]; try reflexivity. exfalso. apply Hp; auto.
    - destruct p as [[|]|]; cbn [or_else]; try reflexivity. exfalso. apply Hp; auto.
  Qed.

  Lemma entry_roundtrip now e : built (n_svc e) -> svc_is_control (n_svc e) = false -> savable (n_svc e) ->
    n_id e < 2 ^ 16 -> (- 2 ^ 63 <= n_seen e < 2 ^ 63)%Z ->
    entry_from_json aparse now (entry_to_json aprint e) = ROk (disabled e) /\ has_key (lit "id") (entry_to_json aprint e) = true.
  Proof.
    intros Hb Hc Hs Hid Hseen. split; [|reflexivity].
    unfold entry_from_json, entry_to_json.
    repeat match goal with |- context [field_of (lit ?a) ?l] =>
      let r := eval cbv [field_of lit beq N.eqb Pos.eqb andb Ascii.N_of_ascii Ascii.N_of_digits N.add N.mul Pos.add Pos.mul] in (field_of (lit a) l) in
      change (field_of (lit a) l) with r end.
    cbn [bind as_str as_bool or_else].
    assert (Hcode : svc_code (s_type (n_svc e)) < 65536) by (destruct (s_type (n_svc e)); reflexivity).
    unfold as_u16, as_i64.
    replace ((0 <=? Z.of_N (svc_code (s_type (n_svc e))))%Z && (Z.of_N (svc_code (s_type (n_svc e))) <? 65536)%Z) with true by lia.
    rewrite N2Z.id. rewrite service_roundtrip by auto.
    change (2 ^ 16) with 65536 in Hid.
    replace ((0 <=? Z.of_N (n_id e))%Z && (Z.of_N (n_id e) <? 65536)%Z) with true by lia.
    replace ((- 2 ^ 63 <=? n_seen e)%Z && (n_seen e <? 2 ^ 63)%Z) with true by lia.
    cbn [or_else]. rewrite N2Z.id. reflexivity.
  Qed.

  (** ** Loading *)

  Lemma add_element_fuel_free fuel t e : fuel <> O -> alookup (n_id e) (t_map t) = None ->
    add_element_fuel fuel t e = ROk (n_id e, extended t (n_id e) e).
  Proof.
    intros Hf H. destruct fuel as [|f]; [contradiction|]. unfold add_element_fuel. cbn [probe]. rewrite H. reflexivity.
  Qed.
  Lemma add_element_free t e : alookup (n_id e) (t_map t) = None -> add_element t e = ROk (n_id e, extended t (n_id e) e).
  Proof. apply add_element_fuel_free. change (2 ^ 16) with 65536. lia. Qed.

  Lemma load_all now l : forall t idx, consistent t ->
    NoDup (map fst l) -> NoDup (map (fun p => to_ident (n_svc (snd p))) l) ->
    (forall id e, In (id, e) l -> n_id e = id /\ id < 2 ^ 16 /\ built (n_svc e) /\ svc_is_control (n_svc e) = false /\ savable (n_svc e) /\
       (- 2 ^ 63 <= n_seen e < 2 ^ 63)%Z /\ alookup id (t_map t) = None /\ ilookup (to_ident (n_svc e)) (t_idents t) = None) ->
    exists t', load_entries aparse now t idx (map (fun p => entry_to_json aprint (snd p)) l) = ROk t' /\ consistent t' /\
      forall id, alookup id (t_map t') = match alookup id l with Some e => Some (disabled e) | None => alookup id (t_map t) end.
  Proof.
    induction l as [|[id e] l IH]; intros t idx K Hn Hni Hl.
    - exists t. split; [reflexivity|]. split; [auto|]. reflexivity.
    - cbn [map load_entries snd]. destruct (Hl id e (or_introl eq_refl)) as (Hid & Hlt & Hb & Hc & Hs & Hseen & Hfree & Hino).
      destruct (entry_roundtrip now e Hb Hc Hs ltac:(now rewrite Hid) Hseen) as [E1 E2]. rewrite E1, E2.
      assert (Ha : add_element t (disabled e) = ROk (id, extended t id (disabled e))).
      { rewrite <- Hid. change (n_id e) with (n_id (disabled e)). apply add_element_free. cbn [disabled n_id]. now rewrite Hid. }
      rewrite Ha.
      assert (K1 : consistent (extended t id (disabled e))).
      { eapply add_element_cons; [exact K| | | |exact Ha]; cbn [disabled n_id n_svc]; [now rewrite Hid|auto|auto]. }
      cbn [map fst snd] in Hn, Hni. inversion Hn as [|? ? Hn1 Hn2]; subst. inversion Hni as [|? ? Hni1 Hni2]; subst.
      destruct (IH (extended t (n_id e) (disabled e)) (idx + 1)) as (t' & Hload & K' & Hlook); auto.
      { intros id' e' Hin. destruct (Hl id' e' (or_intror Hin)) as (A & B & C & D & F & G & H & I).
        repeat (split; [assumption|]). split.
        - unfold extended. cbn [t_map]. rewrite insert_other; [auto|]. intros ->. apply Hn1.
          apply in_map_iff. exists (n_id e, e'). auto.
        - unfold extended. cbn [t_idents disabled n_svc]. rewrite ilookup_insert. destruct (ident_eq_dec _ _) as [E|]; [|auto].
          exfalso. apply Hni1. rewrite <- E. apply in_map_iff. exists (id', e'). auto. }
      exists t'. split; [exact Hload|]. split; [auto|]. intros x. rewrite Hlook. cbn [alookup].
      destruct (N.eqb_spec x (n_id e)) as [->|Hne].
      + replace (alookup (n_id e) l) with (@None entry) by (symmetry; now apply alookup_none).
        unfold extended. cbn [t_map]. now rewrite insert_same.
      + destruct (alookup x l); [reflexivity|]. unfold extended. cbn [t_map]. now rewrite insert_other.
  Qed.

  Lemma nodup_map_filter {A B} (f : A -> B) q l : NoDup (map f l) -> NoDup (map f (filter q l)).
  Proof.
    induction l as [|a l IH]; cbn [map filter]; intros H; [constructor|]. inversion H as [|? ? H1 H2]; subst.
    destruct (q a); [|auto]. cbn [map]. constructor; [|auto].
    intros Hi. apply H1. apply in_map_iff in Hi as (x & Hx & Hi). apply filter_In in Hi as [Hi _].
    apply in_map_iff. eauto.
  Qed.

  Lemma alookup_filter q k (l : list (N * entry)) : NoDup (map fst l) ->
    alookup k (filter q l) = match alookup k l with Some e => if q (k, e) then Some e else None | None => None end.
  Proof.
    induction l as [|[a b] l IH]; cbn [filter alookup map fst]; intros H; [reflexivity|]. inversion H as [|? ? H1 H2]; subst.
    destruct (q (a, b)) eqn:E; cbn [alookup].
    - destruct (N.eqb_spec k a) as [->|]; [now rewrite E|auto].
    - destruct (N.eqb_spec k a) as [->|]; [|auto]. rewrite E, IH by auto.
      replace (alookup a l) with (@None entry); [reflexivity|]. symmetry. now apply alookup_none.
  Qed.

  Lemma table_roundtrip now t : consistent t ->
    (forall id s, stored t id = Some s -> svc_is_control s = false -> savable s) ->
    (forall id x, seen t id = Some x -> (- 2 ^ 63 <= x < 2 ^ 63)%Z) ->
    exists t', table_from_json aparse now (table_to_json aprint t) = ROk t' /\ consistent t' /\
      (forall id, stored t' id = stored t id /\ (id <> 0 -> static t' id = static t id /\ active t' id = active t id /\
         seen t' id = seen t id /\ ~ enabled t' id)) /\
      (forall id, shown t' id = match static t id with Some true => None | _ => shown t id end).
  Proof.
    intros K Hsav Hseen. set (q := fun p : N * entry => negb (svc_is_control (n_svc (snd p)))).
    assert (Hkeys : forall id e, In (id, e) (filter q (t_map t)) -> alookup id (t_map t) = Some e /\ svc_is_control (n_svc e) = false).
    { intros id e Hi. apply filter_In in Hi as [Hi Hq]. apply alookup_unique in Hi; [|apply K]. split; [auto|].
      unfold q in Hq. cbn [snd] in Hq. now destruct (svc_is_control (n_svc e)). }
    destruct (k_control t K) as (c & Hc & Hcs & Hcst & Hcen).
    destruct (load_all now (filter q (t_map t)) (table_new now) 0) as (t' & Hload & K' & Hlook).
    - apply table_new_consistent.
    - apply nodup_map_filter, K.
    - apply nodup_map_filter. apply (entry_idents_nodup t K).
    - intros id e Hi. destruct (Hkeys id e Hi) as [He Hnc]. destruct (k_entry t K _ _ He) as (A & B & C & D).
      repeat (split; [assumption|]). split; [|split; [|split]].
      + apply (Hsav id); [|auto]. unfold stored. now rewrite He.
      + apply (Hseen id). unfold seen. now rewrite He.
      + cbn [table_new t_map alookup]. destruct (N.eqb_spec id 0) as [->|]; [|reflexivity].
        exfalso. assert (e = c) by congruence. subst c. rewrite Hcs in Hnc. discriminate.
      + cbn [table_new t_idents ilookup entry_new n_svc]. destruct (ident_eq_dec _ _) as [E|]; [|reflexivity].
        apply ident_control in E; auto. rewrite E in Hnc. discriminate.
    - exists t'.
      assert (Hmap : forall id, alookup id (t_map t') = match alookup id (t_map t) with
                Some e => Some (if N.eqb id 0 then entry_new now 0 svc_control true true else disabled e) | None => None end).
      { intros id. rewrite Hlook, alookup_filter by apply K. cbn [table_new t_map alookup].
        destruct (alookup id (t_map t)) as [e|] eqn:E.
        - unfold q. cbn [snd]. destruct (svc_is_control (n_svc e)) eqn:Ec; cbn [negb].
          + assert (id = 0). { apply (k_only_control t K id (n_svc e)); [unfold stored; now rewrite E|auto]. } subst id.
            rewrite N.eqb_refl. reflexivity.
          + destruct (N.eqb_spec id 0) as [->|]; [|reflexivity]. exfalso.
            assert (e = c) by congruence. subst c. rewrite Hcs in Ec. discriminate.
        - destruct (N.eqb_spec id 0) as [->|]; [congruence|reflexivity]. }
      split; [exact Hload|]. split; [auto|]. split.
      + intros id. unfold stored, static, active, seen, enabled. rewrite Hmap. split.
        * destruct (alookup id (t_map t)) as [e|] eqn:E; [|reflexivity]. cbn.
          destruct (N.eqb_spec id 0) as [->|]; [|reflexivity]. assert (e = c) by congruence. subst c. now rewrite Hcs.
        * intros Hne. apply N.eqb_neq in Hne. rewrite Hne. destruct (alookup id (t_map t)) as [e|]; cbn; repeat split; discriminate.
      + intros id. rewrite !shown_entry by auto. unfold static. rewrite Hmap. destruct (alookup id (t_map t)) as [e|] eqn:E; [|reflexivity].
        cbn [option_map]. destruct (N.eqb_spec id 0) as [->|].
        * assert (e = c) by congruence. subst c. rewrite Hcst. cbn. reflexivity.
        * cbn [disabled n_svc]. unfold is_visible. cbn [disabled n_static n_enabled n_active]. destruct (n_static e); reflexivity.
  Qed.

  Lemma as_u16_lt j v : as_u16 j = Some v -> v < 2 ^ 16.
  Proof.
    unfold as_u16. destruct j; try discriminate. destruct ((0 <=? z)%Z && (z <? 65536)%Z) eqn:Ez; [|discriminate].
    intros [= <-]. change (2 ^ 16) with 65536. lia.
  Qed.

  Lemma entry_from_json_shape now j e : entry_from_json aparse now j = ROk e -> n_id e < 2 ^ 16 /\ built (n_svc e).
  Proof.
    unfold entry_from_json. destruct j; try discriminate. intros E.
    repeat match type of E with match ?x with _ => _ end = _ => destruct x eqn:?; try discriminate end.
    injection E as <-. cbn [n_id n_svc]. split.
    - match goal with |- or_else ?x 0 < _ => destruct x as [v|] eqn:Ex end; cbn [or_else]; [|reflexivity].
      clear - Ex. revert Ex. unfold bind. destruct (field_of _ l) as [x|]; [|discriminate]. apply as_u16_lt.
    - match goal with H : service_of ?a ?m ?b ?c = _ |- _ => unfold service_of in H; cbv zeta in H; destruct m, b;
        repeat (match type of H with (if ?c then _ else _) = _ => destruct c end);
        try discriminate; injection H as <-; constructor end.
  Qed.

  (** Documents that keep the table consistent: distinct IDs and identities, nothing claims to be the control service. *)
  Lemma load_consistent now l : forall t idx t', consistent t ->
    load_entries aparse now t idx l = ROk t' ->
    (forall j e, In j l -> entry_from_json aparse now j = ROk e -> ilookup (to_ident (n_svc e)) (t_idents t) = None) ->
    (forall i j a b, nth_error l i = Some a -> nth_error l j = Some b -> i <> j ->
       forall x y, entry_from_json aparse now a = ROk x -> entry_from_json aparse now b = ROk y -> to_ident (n_svc x) <> to_ident (n_svc y)) ->
    consistent t'.
  Proof.
    induction l as [|j l IH]; intros t idx t' K H Hno Hd; cbn [load_entries] in H; [injection H as <-; auto|].
    destruct (entry_from_json aparse now j) as [e| |] eqn:E; try discriminate. cbv zeta in H.
    set (e' := if has_key (lit "id") j then e else _) in H.
    destruct (add_element t e') as [[id t1]| |] eqn:Ea; try discriminate.
    assert (Hsvc : n_svc e' = n_svc e) by (unfold e'; destruct (has_key _ j); reflexivity).
    destruct (entry_from_json_shape now j e E) as [Hidlt Hbuilt].
    assert (Hlt' : n_id e' < 2 ^ 16).
    { unfold e'. destruct (has_key _ j); [auto|]. cbn [n_id]. apply hash_id_lt. }
    assert (K1 : consistent t1).
    { eapply add_element_cons; [exact K|exact Hlt'|now rewrite Hsvc| |exact Ea]. rewrite Hsvc. apply (Hno j); [now left|auto]. }
    destruct (add_element_shape _ _ _ _ Hlt' Ea) as (_ & _ & Ht1).
    apply (IH t1 (idx + 1) t'); auto.
    - intros j' x Hj Hx. rewrite Ht1. unfold extended. cbn [t_idents]. rewrite ilookup_insert, Hsvc.
      destruct (ident_eq_dec _ _) as [Ei|]; [|apply (Hno j'); [now right|auto]].
      exfalso. apply In_nth_error in Hj as [i Hi].
      apply (Hd (S i) O j' j Hi eq_refl ltac:(discriminate) x e Hx E Ei).
    - intros i i' a b Ha Hb Hne. apply (Hd (S i) (S i') a b Ha Hb). congruence.
  Qed.
End Json.
