(** The independent readers recover what the encoders wrote. *)
From Coq Require Import NArith List Bool Lia ZArith ZifyBool ZifyNat ZifyN Permutation.
From Verif.Model Require Import Bytes Utf8 Frame Service Control.
From Verif.Spec Require Import FrameSpec ControlSpec.
From Verif.Proofs Require Import BytesFacts FrameProofs ControlProofs.
Import ListNotations.
Local Open Scope N_scope.
Ltac Zify.zify_post_hook ::= Z.div_mod_to_equations.

(** ** Lengths *)
Lemma nlen_to_be k n : nlen (to_be k n) = N.of_nat k.
Proof. unfold nlen. now rewrite to_be_length. Qed.

Lemma ip_bytes_length i : length (ip_bytes i) = 16%nat.
Proof. destruct i; cbn [ip_bytes]; [rewrite app_length, repeat_length|]; rewrite to_be_length; reflexivity. Qed.

Lemma header_length e : length (element_header_encode e) = 29%nat.
Proof.
  destruct e as [id s]. unfold element_header_encode. cbv zeta.
  rewrite !app_length, !to_be_length, ip_bytes_length. reflexivity.
Qed.

Lemma element_len_ok e : element_len e = nlen (element_encode e).
Proof.
  unfold element_encode, element_len. rewrite !nlen_app. unfold nlen at 2. rewrite header_length.
  rewrite nlen_cons, nlen_nil. lia.
Qed.

Lemma fold_len_ok {A} (f : A -> bytes) (g : A -> N) l acc :
  (forall a, g a = nlen (f a)) ->
  fold_left (fun acc e => acc + g e) l acc = acc + nlen (concat (map f l)).
Proof.
  intros H. revert acc. induction l as [|a l IH]; intros acc; cbn [fold_left map concat].
  - rewrite nlen_nil. lia.
  - rewrite IH, nlen_app, H. lia.
Qed.

Lemma table_len_ok t : table_len t = nlen (table_encode t).
Proof.
  unfold table_len, table_encode. rewrite (fold_len_ok element_encode) by exact element_len_ok.
  rewrite nlen_app, <- element_len_ok. lia.
Qed.

Lemma ports_len l : nlen (concat (map (to_be 2) l)) = nlen l * 2.
Proof.
  induction l as [|p l IH]; [reflexivity|]. cbn [map concat]. rewrite nlen_app, nlen_to_be, IH, nlen_cons. lia.
Qed.

Lemma host_len_ok h : host_len h = nlen (host_encode h).
Proof.
  unfold host_len, host_encode. rewrite !nlen_app, !nlen_to_be, ports_len.
  unfold nlen at 2. rewrite ip_bytes_length. lia.
Qed.

Lemma host_table_len_ok hs : host_table_len hs = nlen (host_table_encode hs).
Proof.
  unfold host_table_len, host_table_encode. rewrite (fold_len_ok host_encode) by exact host_len_ok.
  rewrite nlen_app, nlen_to_be. lia.
Qed.

Lemma body_len_ok b : fixed_arrays b -> body_len b = nlen (body_encode b).
Proof.
  destruct b; cbn [fixed_arrays body_len body_encode]; intros H;
    rewrite ?nlen_app, ?nlen_to_be, ?nlen_cons, ?nlen_nil, <- ?table_len_ok, <- ?host_table_len_ok; try lia; [reflexivity|].
  destruct H as [Hu Hk]. assert (nlen uuid = 16 /\ nlen key = 16) as [-> ->] by (unfold nlen; rewrite Hu, Hk; auto). lia.
Qed.

Lemma cmsg_len_ok m : fixed_arrays (cm_body m) -> cmsg_len m = nlen (cmsg_encode m).
Proof.
  intros H. unfold cmsg_len, cmsg_encode. rewrite !nlen_app, !nlen_to_be, <- body_len_ok by exact H. lia.
Qed.

(** ** Readers *)
Lemma firstn_app_n n (a b : bytes) : length a = n -> firstn n (a ++ b) = a.
Proof. intros H. now apply firstn_app_exact. Qed.

Lemma value_to_be k n : n < 256 ^ N.of_nat k -> value (to_be k n) = n.
Proof. exact (of_be_to_be_small k n). Qed.

Lemma take_app n a b : length a = n -> take n (a ++ b) = Some (a, b).
Proof.
  intros <-. unfold take. rewrite app_length.
  replace (Nat.leb (length a) (length a + length b)) with true by (symmetry; apply Nat.leb_le; lia).
  now rewrite firstn_app_exact, skipn_app_exact by reflexivity.
Qed.

Lemma cstring_app s r : no_nul s -> cstring (s ++ 0 :: r) = Some (s, r).
Proof.
  unfold no_nul. induction s as [|x s IH]; cbn [app cstring].
  - reflexivity.
  - intros H. destruct (N.eqb x 0) eqn:E; [apply N.eqb_eq in E; subst; exfalso; apply H; left; reflexivity|].
    rewrite IH; [reflexivity|]. intros Hin. apply H. now right.
Qed.

Lemma read_ip_bytes i : wf_ip i -> read_ip (ip_version i) (ip_bytes i) = Some i.
Proof.
  intros H. destruct i as [a|a]; cbn [ip_version ip_bytes wf_ip] in *; unfold read_ip; cbn [N.eqb Pos.eqb].
  - rewrite firstn_app_n by apply to_be_length. rewrite value_to_be by exact H. reflexivity.
  - rewrite value_to_be by exact H. reflexivity.
Qed.

Lemma skip_app n m (a b : bytes) : length a = n -> skipn (n + m) (a ++ b) = skipn m b.
Proof. intros <-. rewrite skipn_app, skipn_all2 by lia. cbn [app]. f_equal. lia. Qed.


Lemma wf_announce_ip s : wf_service s -> wf_ip (sa_ip (match s_addr s with Some a => a | None => {| sa_ip := V4 0; sa_port := 0 |} end)).
Proof. intros (_ & Ha & _). destruct (s_addr s) as [a|]; [apply (Ha a eq_refl)|reflexivity]. Qed.

Lemma svc_code_bound t : svc_code t < 2 ^ 16.
Proof. destruct t; reflexivity. Qed.

Lemma read_entry_encode e x :
  fst e < 2 ^ 16 -> wf_service (snd e) -> nul_free_path (snd e) ->
  read_entry (element_encode e ++ x) = Some (announce e, x).
Proof.
  destruct e as [id s]. cbn [fst snd]. intros Hid Hwf Hn. unfold read_entry, element_encode.
  rewrite <- !app_assoc. cbn [app snd]. rewrite take_app by apply header_length.
  rewrite cstring_app.
  2:{ unfold path_or_empty. destruct (s_path s) as [p|] eqn:E; [now apply Hn|intros []]. }
  unfold element_header_encode, announce, path_or_empty. cbv zeta.
  set (mac := match s_mac s with Some m => m | None => 0 end).
  set (addr := match s_addr s with Some a => a | None => {| sa_ip := V4 0; sa_port := 0 |} end).
  assert (Hmac : mac < 2 ^ 48).
  { unfold mac. destruct Hwf as (Hm & _). destruct (s_mac s) as [m|]; [now apply Hm|reflexivity]. }
  assert (Haddr : wf_saddr addr).
  { unfold addr. destruct Hwf as (_ & Ha & _). destruct (s_addr s) as [a|]; [now apply Ha|split; reflexivity]. }
  destruct Haddr as [Hip Hport].
  set (code := svc_code (s_type s)).
  set (h := to_be 2 id ++ to_be 2 code ++ to_be 6 mac ++ to_be 1 (ip_version (sa_ip addr)) ++ ip_bytes (sa_ip addr) ++ to_be 2 (sa_port addr)).
  assert (H2 : skipn 2 h = to_be 2 code ++ to_be 6 mac ++ to_be 1 (ip_version (sa_ip addr)) ++ ip_bytes (sa_ip addr) ++ to_be 2 (sa_port addr))
    by (unfold h; rewrite (skip_app 2 0) by apply to_be_length; reflexivity).
  assert (H4 : skipn 4 h = to_be 6 mac ++ to_be 1 (ip_version (sa_ip addr)) ++ ip_bytes (sa_ip addr) ++ to_be 2 (sa_port addr))
    by (change 4%nat with (2 + 2)%nat at 1; rewrite <- skipn_skipn', H2, (skip_app 2 0) by apply to_be_length; reflexivity).
  assert (H10 : skipn 10 h = to_be 1 (ip_version (sa_ip addr)) ++ ip_bytes (sa_ip addr) ++ to_be 2 (sa_port addr))
    by (change 10%nat with (4 + 6)%nat; rewrite <- skipn_skipn', H4, (skip_app 6 0) by apply to_be_length; reflexivity).
  assert (H11 : skipn 11 h = ip_bytes (sa_ip addr) ++ to_be 2 (sa_port addr))
    by (change 11%nat with (10 + 1)%nat; rewrite <- skipn_skipn', H10, (skip_app 1 0) by apply to_be_length; reflexivity).
  assert (H27 : skipn 27 h = to_be 2 (sa_port addr))
    by (change 27%nat with (11 + 16)%nat; rewrite <- skipn_skipn', H11, (skip_app 16 0) by apply ip_bytes_length; reflexivity).
  rewrite H2, H4, H10, H11, H27. unfold h.
  rewrite (firstn_app_n 2 (to_be 2 id)), (firstn_app_n 2 (to_be 2 code)), (firstn_app_n 6), (firstn_app_n 1), (firstn_app_n 16)
    by (apply to_be_length || apply ip_bytes_length).
  rewrite (value_to_be 2 id) by exact Hid.
  rewrite (value_to_be 2 code) by apply svc_code_bound.
  rewrite (value_to_be 6 mac) by exact Hmac.
  rewrite (value_to_be 1 (ip_version _)) by (destruct (sa_ip addr); reflexivity).
  rewrite (value_to_be 2 (sa_port addr)) by exact Hport.
  rewrite read_ip_bytes by exact Hip.
  unfold addr. destruct (s_addr s); reflexivity.
Qed.

Lemma read_entries_encode t x fuel :
  Forall wf_entry t -> Forall (fun e => nul_free_path (snd e)) t ->
  (length t < fuel)%nat ->
  read_entries fuel (table_encode t ++ x) = Some (map announce t, x).
Proof.
  intros Hwf Hn. revert fuel. unfold table_encode.
  induction Hwf as [|e t He Ht IH]; intros fuel Hf.
  - destruct fuel as [|fuel]; [cbn in Hf; lia|]. cbn [read_entries concat map app].
    rewrite read_entry_encode; [reflexivity|reflexivity| |].
    + repeat split; discriminate.
    + intros p; discriminate.
  - destruct fuel as [|fuel]; [cbn in Hf; lia|]. inversion Hn as [|? ? Hne Hnt]; subst.
    cbn [map concat length] in *. cbn [read_entries]. rewrite <- !app_assoc.
    destruct He as (Hid & Hne0 & Hs). rewrite read_entry_encode by assumption.
    replace (N.eqb (e_id (announce e)) 0 && N.eqb (e_type (announce e)) 0) with false.
    2:{ symmetry. destruct e as [id s]. cbn [announce e_id e_type fst snd] in *.
        destruct (N.eqb id 0) eqn:E0; [|reflexivity]. apply N.eqb_eq in E0. destruct Hne0 as [H|H]; [contradiction|].
        cbn [andb]. apply N.eqb_neq. destruct (s_type s); cbn [svc_code]; congruence. }
    rewrite <- app_assoc in IH. rewrite (IH Hnt) by lia. reflexivity.
Qed.

Lemma table_encode_longer t : (length t < length (table_encode t))%nat.
Proof.
  unfold table_encode. rewrite app_length.
  assert (H1 : forall e, (1 <= length (element_encode e))%nat).
  { intros e. unfold element_encode. rewrite app_length, header_length. lia. }
  assert (H : (length t <= length (concat (map element_encode t)))%nat).
  { induction t as [|e t IH]; cbn [map concat length]; [lia|]. rewrite app_length. specialize (H1 e). lia. }
  specialize (H1 (0, svc_control)). lia.
Qed.

Lemma read_table_encode t x :
  Forall wf_entry t -> Forall (fun e => nul_free_path (snd e)) t ->
  read_table (table_encode t ++ x) = Some (map announce t, x).
Proof.
  intros Hwf Hn. unfold read_table. apply read_entries_encode; [assumption..|].
  eapply Nat.lt_le_trans; [apply table_encode_longer|]. rewrite app_length. lia.
Qed.

(** ** Building the announced table *)
Lemma assoc_insert_fresh k v l : ~ In k (map fst l) -> assoc_insert k v l = l ++ [(k, v)].
Proof.
  induction l as [|[k' v'] l IH]; cbn [assoc_insert map fst In app]; [reflexivity|].
  intros H. destruct (N.eqb k k') eqn:E; [apply N.eqb_eq in E; subst; exfalso; apply H; now left|].
  f_equal. apply IH. intros Hin. apply H. now right.
Qed.

Lemma fold_insert_fresh l acc :
  NoDup (map fst (acc ++ l)) ->
  fold_left (fun m e => assoc_insert (fst e) (snd e) m) l acc = acc ++ l.
Proof.
  revert acc. induction l as [|[k v] l IH]; intros acc H; cbn [fold_left].
  - now rewrite app_nil_r.
  - cbn [fst snd]. rewrite assoc_insert_fresh.
    + rewrite IH; rewrite <- app_assoc; [reflexivity|exact H].
    + rewrite map_app in H. cbn [map fst] in H. apply NoDup_remove_2 in H. rewrite in_app_iff in H. tauto.
Qed.

Lemma table_of_services_nodup l : NoDup (map fst l) -> table_of_services l = l.
Proof. intros H. unfold table_of_services. now rewrite fold_insert_fresh. Qed.

Lemma assoc_insert_in k v l e : In e (assoc_insert k v l) -> e = (k, v) \/ In e l.
Proof.
  induction l as [|[k' v'] l IH]; cbn [assoc_insert In]; [intuition|].
  destruct (N.eqb k k'); cbn [In]; intuition.
Qed.
Lemma assoc_insert_keys k v l : forall x, In x (map fst (assoc_insert k v l)) <-> x = k \/ In x (map fst l).
Proof.
  induction l as [|[k' v'] l IH]; intros x; cbn [assoc_insert map fst In]; [intuition|].
  destruct (N.eqb k k') eqn:E; cbn [map fst In].
  - apply N.eqb_eq in E. subst. intuition.
  - rewrite IH. intuition.
Qed.
Lemma assoc_insert_nodup k v l : NoDup (map fst l) -> NoDup (map fst (assoc_insert k v l)).
Proof.
  induction l as [|[k' v'] l IH]; cbn [assoc_insert map fst]; intros H; [constructor; [intros []|constructor]|].
  inversion H as [|? ? Hn Hd]; subst. destruct (N.eqb k k') eqn:E; cbn [map fst].
  - apply N.eqb_eq in E. subst. now constructor.
  - constructor; [|now apply IH]. rewrite assoc_insert_keys. apply N.eqb_neq in E. intuition.
Qed.

Lemma fold_insert_facts l acc :
  NoDup (map fst acc) ->
  let r := fold_left (fun m e => assoc_insert (fst e) (snd e) m) l acc in
  NoDup (map fst r) /\ (forall e, In e r -> In e acc \/ In e l) /\
  (forall k, In k (map fst r) <-> In k (map fst acc) \/ In k (map fst l)).
Proof.
  revert acc. induction l as [|[k v] l IH]; intros acc H; cbn [fold_left]; cbv zeta.
  - cbn [In map]. intuition.
  - cbn [fst snd]. destruct (IH _ (assoc_insert_nodup k v acc H)) as (A & B & C). split; [exact A|]. split.
    + intros e He. destruct (B e He) as [Hi|Hi]; [|right; now right].
      apply assoc_insert_in in Hi as [->|Hi]; [right; now left|now left].
    + intros x. rewrite C, assoc_insert_keys. cbn [map fst In]. intuition.
Qed.

Lemma table_of_services_facts l :
  NoDup (map fst (table_of_services l)) /\ (forall e, In e (table_of_services l) -> In e l) /\
  (forall k, In k (map fst (table_of_services l)) <-> In k (map fst l)).
Proof.
  destruct (fold_insert_facts l [] (NoDup_nil _)) as (A & B & C). split; [exact A|]. split.
  - intros e He. destruct (B e He) as [[]|H]; exact H.
  - intros k. rewrite C. cbn [map In]. intuition.
Qed.

(** ** C08 *)
Lemma table_recovered svcs order x :
  NoDup (map fst svcs) -> Forall wf_entry svcs -> Forall (fun e => nul_free_path (snd e)) svcs ->
  Permutation order (table_of_services svcs) ->
  exists entries, read_table (table_encode order ++ x) = Some (entries, x) /\
    Permutation entries (map announce svcs).
Proof.
  intros Hd Hw Hn Hp. rewrite (table_of_services_nodup _ Hd) in Hp.
  exists (map announce order). split.
  - apply read_table_encode.
    + eapply Permutation_Forall; [apply Permutation_sym; exact Hp|exact Hw].
    + eapply Permutation_Forall; [apply Permutation_sym; exact Hp|exact Hn].
  - now apply Permutation_map.
Qed.

Lemma update_recovered svcs order id :
  id < 2 ^ 16 ->
  NoDup (map fst svcs) -> Forall wf_entry svcs -> Forall (fun e => nul_free_path (snd e)) svcs ->
  Permutation order (table_of_services svcs) ->
  exists entries, read_update (cmsg_encode (mk_update id order)) = Some (id, entries) /\
    Permutation entries (map announce svcs).
Proof.
  intros Hid Hd Hw Hn Hp.
  destruct (table_recovered svcs order [] Hd Hw Hn Hp) as (es & Hr & Hperm). rewrite app_nil_r in Hr.
  exists es. split; [|exact Hperm].
  unfold read_update, cmsg_encode, mk_update. cbn [cm_id cm_type cm_body body_encode].
  rewrite app_assoc, take_app by (rewrite app_length, !to_be_length; reflexivity).
  rewrite (skip_app 2 0) by apply to_be_length. cbn [skipn].
  rewrite (firstn_app_n 2) by apply to_be_length.
  rewrite (value_to_be 2 4), (value_to_be 2 id) by (exact Hid || reflexivity).
  change (negb (N.eqb 4 4)) with false. rewrite Hr. reflexivity.
Qed.

(** ** C09 *)
Lemma register_recovered id uuid key mac window gateway svcs order info m :
  id < 2 ^ 16 -> length uuid = 16%nat -> length key = 16%nat -> mac < 2 ^ 48 -> no_nul info ->
  NoDup (map fst svcs) -> Forall wf_entry svcs -> Forall (fun e => nul_free_path (snd e)) svcs ->
  Permutation order (table_of_services svcs) ->
  mk_register id uuid key mac window gateway order info = ROk m ->
  exists entries,
    read_register (cmsg_encode m) =
    Some (id, {| g_uuid := uuid; g_key := key; g_mac := mac; g_window := window; g_gateway := gateway;
                 g_info := info; g_table := entries |}) /\
    Permutation entries (map announce svcs).
Proof.
  intros Hid Hu Hk Hm Hi Hd Hw Hn Hp Hreg.
  destruct (table_recovered svcs order [] Hd Hw Hn Hp) as (es & Hr & Hperm). rewrite app_nil_r in Hr.
  exists es. split; [|exact Hperm].
  unfold mk_register in Hreg. destruct (N.eqb window 0) eqn:E0; [discriminate|].
  destruct (N.ltb 65536 window) eqn:E1; [discriminate|]. injection Hreg as <-.
  set (fl := if gateway then FLAG_GATEWAY_MODE else 0).
  assert (Hfl : fl < 2 ^ 32) by (unfold fl; destruct gateway; reflexivity).
  assert (Hodd : N.odd fl = gateway) by (unfold fl; destruct gateway; reflexivity).
  unfold read_register, cmsg_encode. cbn [cm_id cm_type cm_body body_encode].
  rewrite <- !app_assoc. cbn [app].
  set (h := to_be 2 id ++ to_be 2 2 ++ uuid ++ key ++ to_be 6 mac ++ to_be 2 (u16 (window - 1)) ++ to_be 4 fl).
  replace (to_be 2 id ++ to_be 2 2 ++ uuid ++ key ++ to_be 6 mac ++ to_be 2 (u16 (window - 1)) ++ to_be 4 fl
           ++ info ++ 0 :: table_encode order) with (h ++ info ++ 0 :: table_encode order)
    by (unfold h; rewrite <- !app_assoc; reflexivity).
  rewrite (take_app 48 h) by (unfold h; rewrite !app_length, !to_be_length, Hu, Hk; reflexivity).
  rewrite cstring_app by exact Hi. rewrite Hr.
  assert (Hs2 : skipn 2 h = to_be 2 2 ++ uuid ++ key ++ to_be 6 mac ++ to_be 2 (u16 (window - 1)) ++ to_be 4 fl)
    by (unfold h; rewrite (skip_app 2 0) by apply to_be_length; reflexivity).
  assert (Hs4 : skipn 4 h = uuid ++ key ++ to_be 6 mac ++ to_be 2 (u16 (window - 1)) ++ to_be 4 fl)
    by (change 4%nat with (2 + 2)%nat at 1; rewrite <- skipn_skipn', Hs2, (skip_app 2 0) by apply to_be_length; reflexivity).
  assert (Hs20 : skipn 20 h = key ++ to_be 6 mac ++ to_be 2 (u16 (window - 1)) ++ to_be 4 fl)
    by (change 20%nat with (4 + 16)%nat; rewrite <- skipn_skipn', Hs4, (skip_app 16 0) by exact Hu; reflexivity).
  assert (Hs36 : skipn 36 h = to_be 6 mac ++ to_be 2 (u16 (window - 1)) ++ to_be 4 fl)
    by (change 36%nat with (20 + 16)%nat; rewrite <- skipn_skipn', Hs20, (skip_app 16 0) by exact Hk; reflexivity).
  assert (Hs42 : skipn 42 h = to_be 2 (u16 (window - 1)) ++ to_be 4 fl)
    by (change 42%nat with (36 + 6)%nat; rewrite <- skipn_skipn', Hs36, (skip_app 6 0) by apply to_be_length; reflexivity).
  assert (Hs44 : skipn 44 h = to_be 4 fl)
    by (change 44%nat with (42 + 2)%nat; rewrite <- skipn_skipn', Hs42, (skip_app 2 0) by apply to_be_length; reflexivity).
  rewrite Hs2, Hs4, Hs20, Hs36, Hs42, Hs44.
  rewrite (firstn_app_n 2 (to_be 2 2)), (firstn_app_n 16 uuid), (firstn_app_n 16 key),
    (firstn_app_n 6 (to_be 6 mac)), (firstn_app_n 2 (to_be 2 (u16 (window - 1))))
    by (assumption || apply to_be_length).
  unfold h at 1. rewrite (firstn_app_n 2 (to_be 2 id)) by apply to_be_length.
  rewrite (firstn_all2 (to_be 4 fl)) by (rewrite to_be_length; lia).
  rewrite (value_to_be 2 2), (value_to_be 2 id), (value_to_be 6 mac),
    (value_to_be 4 fl), (value_to_be 2 (u16 _)); try assumption; try reflexivity.
  - change (negb (N.eqb 2 2)) with false. rewrite Hodd.
    replace (u16 (window - 1) + 1) with window; [reflexivity|].
    unfold u16. pows. lia.
  - unfold u16. apply N.mod_lt. discriminate.
Qed.

Lemma register_window id uuid key mac window gateway order info :
  (1 <= window <= 65536 -> exists m, mk_register id uuid key mac window gateway order info = ROk m) /\
  (~ 1 <= window <= 65536 -> mk_register id uuid key mac window gateway order info = RPanic).
Proof.
  unfold mk_register. split; intros H.
  - replace (N.eqb window 0) with false by lia. replace (N.ltb 65536 window) with false by lia. eauto.
  - destruct (N.eqb window 0) eqn:E; [reflexivity|]. now replace (N.ltb 65536 window) with true by lia.
Qed.

(** ** C10 *)
Lemma read_ports_encode ps x :
  Forall (fun p => p < 2 ^ 16) ps ->
  read_ports (length ps) (concat (map (to_be 2) ps) ++ x) = Some (ps, x).
Proof.
  induction 1 as [|p ps Hp Hps IH]; [reflexivity|].
  cbn [length read_ports map concat]. rewrite <- app_assoc, take_app by apply to_be_length.
  rewrite IH, value_to_be by exact Hp. reflexivity.
Qed.

Lemma read_host_encode h x :
  wf_host h -> nlen (hr_ports h) < 65536 ->
  read_host (host_encode h ++ x) = Some (announce_host h, x).
Proof.
  intros (Hf & Hm & Hi & Hp) Hl. unfold read_host, host_encode.
  set (n := u16 (nlen (hr_ports h))).
  assert (Hn : n = nlen (hr_ports h)) by (unfold n, u16; pows; rewrite N.mod_small; [reflexivity|exact Hl]).
  set (hd := to_be 1 (hr_flags h) ++ to_be 6 (hr_mac h) ++ to_be 1 (ip_version (hr_ip h)) ++ ip_bytes (hr_ip h) ++ to_be 2 n).
  replace ((to_be 1 (hr_flags h) ++ to_be 6 (hr_mac h) ++ to_be 1 (ip_version (hr_ip h)) ++ ip_bytes (hr_ip h) ++ to_be 2 n
    ++ concat (map (to_be 2) (hr_ports h))) ++ x) with (hd ++ concat (map (to_be 2) (hr_ports h)) ++ x)
    by (unfold hd; rewrite <- !app_assoc; reflexivity).
  rewrite take_app by (unfold hd; rewrite !app_length, !to_be_length, ip_bytes_length; reflexivity).
  assert (H1 : skipn 1 hd = to_be 6 (hr_mac h) ++ to_be 1 (ip_version (hr_ip h)) ++ ip_bytes (hr_ip h) ++ to_be 2 n)
    by (unfold hd; rewrite (skip_app 1 0) by apply to_be_length; reflexivity).
  assert (H7 : skipn 7 hd = to_be 1 (ip_version (hr_ip h)) ++ ip_bytes (hr_ip h) ++ to_be 2 n)
    by (change 7%nat with (1 + 6)%nat; rewrite <- skipn_skipn', H1, (skip_app 6 0) by apply to_be_length; reflexivity).
  assert (H8 : skipn 8 hd = ip_bytes (hr_ip h) ++ to_be 2 n)
    by (change 8%nat with (7 + 1)%nat; rewrite <- skipn_skipn', H7, (skip_app 1 0) by apply to_be_length; reflexivity).
  assert (H24 : skipn 24 hd = to_be 2 n)
    by (change 24%nat with (8 + 16)%nat; rewrite <- skipn_skipn', H8, (skip_app 16 0) by apply ip_bytes_length; reflexivity).
  rewrite H1, H7, H8, H24.
  rewrite (firstn_app_n 6), (firstn_app_n 1 (to_be 1 (ip_version _))), (firstn_app_n 16)
    by (apply to_be_length || apply ip_bytes_length).
  unfold hd. rewrite (firstn_app_n 1) by apply to_be_length.
  rewrite (value_to_be 2 n) by (rewrite Hn; exact Hl).
  rewrite Hn. unfold nlen at 1. rewrite Nat2N.id, read_ports_encode by exact Hp.
  rewrite (value_to_be 1 (hr_flags h)), (value_to_be 6), (value_to_be 1 (ip_version _))
    by (assumption || (destruct (hr_ip h); reflexivity)).
  rewrite read_ip_bytes by exact Hi. reflexivity.
Qed.

Lemma read_hosts_encode hs x :
  Forall wf_host hs -> Forall (fun h => nlen (hr_ports h) < 65536) hs ->
  read_hosts (length hs) (concat (map host_encode hs) ++ x) = Some (map announce_host hs, x).
Proof.
  induction 1 as [|h hs Hh Hhs IH]; [reflexivity|]. intros Hl. inversion Hl; subst.
  cbn [length read_hosts map concat]. rewrite <- app_assoc, read_host_encode by assumption.
  rewrite IH by assumption. reflexivity.
Qed.

Lemma in_reported get_id (svcs : list service) (e : element) :
  In e (flat_map (fun s => match get_id (to_ident s) with Some id => [(id, s)] | None => [] end) svcs) <->
  In (snd e) svcs /\ get_id (to_ident (snd e)) = Some (fst e).
Proof.
  rewrite in_flat_map. split.
  - intros (s & Hs & Hin). destruct (get_id (to_ident s)) as [id|] eqn:E; [|destruct Hin].
    destruct Hin as [<-|[]]. cbn. auto.
  - intros [Hs Hg]. exists (snd e). split; [exact Hs|]. rewrite Hg. destruct e; now left.
Qed.

Lemma report_recovered id req hosts svcs get_id order :
  id < 2 ^ 16 -> req < 2 ^ 16 ->
  nlen hosts < 2 ^ 32 -> Forall wf_host hosts -> Forall (fun h => nlen (hr_ports h) < 65536) hosts ->
  Forall (fun s => wf_service s /\ nul_free_path s) svcs ->
  (forall s i, In s svcs -> get_id (to_ident s) = Some i -> i < 2 ^ 16 /\ i <> 0) ->
  Permutation order (scan_report_services get_id svcs) ->
  exists entries,
    read_report (cmsg_encode (mk_scan_report id req hosts order)) =
    Some {| rp_id := id; rp_request := req; rp_hosts := map announce_host hosts; rp_services := entries |} /\
    NoDup (map e_id entries) /\
    (forall e, In e entries -> exists s, In s svcs /\ get_id (to_ident s) = Some (e_id e) /\ e = announce (e_id e, s)) /\
    (forall s i, In s svcs -> get_id (to_ident s) = Some i -> In i (map e_id entries)).
Proof.
  intros Hid Hreq Hlen Hh Hports Hs Hg Hp.
  unfold scan_report_services in Hp.
  remember (flat_map (fun s => match get_id (to_ident s) with Some id => [(id, s)] | None => [] end) svcs) as found eqn:Ef.
  destruct (table_of_services_facts found) as (Hnd & Hsub & Hkeys).
  assert (Horder : forall e, In e order -> In (snd e) svcs /\ get_id (to_ident (snd e)) = Some (fst e)).
  { intros e He. apply in_reported. rewrite <- Ef. apply Hsub. eapply Permutation_in; eassumption. }
  assert (Hids : map e_id (map announce order) = map fst order).
  { rewrite map_map. apply map_ext. intros [i s]; reflexivity. }
  rewrite Forall_forall in Hs.
  assert (Hr : read_table (table_encode order) = Some (map announce order, [])).
  { rewrite <- (app_nil_r (table_encode order)). apply read_table_encode; apply Forall_forall; intros e He;
      destruct (Horder e He) as [Hi Hgi]; destruct (Hs _ Hi) as [Hws Hns].
    - destruct (Hg _ _ Hi Hgi). split; [assumption|]. split; [now left|assumption].
    - exact Hns. }
  exists (map announce order). split; [|split; [|split]].
  - unfold read_report, cmsg_encode, mk_scan_report. cbn [cm_id cm_type cm_body body_encode].
    unfold host_table_encode.
    set (h := to_be 2 id ++ to_be 2 11 ++ to_be 2 req ++ to_be 4 (u32 (nlen hosts))).
    replace (to_be 2 id ++ to_be 2 11 ++ to_be 2 req ++ (to_be 4 (u32 (nlen hosts)) ++ concat (map host_encode hosts)) ++ table_encode order)
      with (h ++ concat (map host_encode hosts) ++ table_encode order) by (unfold h; rewrite <- !app_assoc; reflexivity).
    rewrite take_app by (unfold h; rewrite !app_length, !to_be_length; reflexivity).
    assert (H2 : skipn 2 h = to_be 2 11 ++ to_be 2 req ++ to_be 4 (u32 (nlen hosts)))
      by (unfold h; rewrite (skip_app 2 0) by apply to_be_length; reflexivity).
    assert (H4 : skipn 4 h = to_be 2 req ++ to_be 4 (u32 (nlen hosts)))
      by (change 4%nat with (2 + 2)%nat at 1; rewrite <- skipn_skipn', H2, (skip_app 2 0) by apply to_be_length; reflexivity).
    assert (H6 : skipn 6 h = to_be 4 (u32 (nlen hosts)))
      by (change 6%nat with (4 + 2)%nat; rewrite <- skipn_skipn', H4, (skip_app 2 0) by apply to_be_length; reflexivity).
    rewrite H2, H4, H6. unfold h.
    rewrite (firstn_app_n 2 (to_be 2 11)), (firstn_app_n 2 (to_be 2 req)), (firstn_app_n 2 (to_be 2 id))
      by apply to_be_length.
      assert (Hu : u32 (nlen hosts) = nlen hosts) by (unfold u32; apply N.mod_small; exact Hlen).
    rewrite Hu, (value_to_be 2 11), (value_to_be 2 req), (value_to_be 2 id),
      (value_to_be 4) by (assumption || reflexivity).
    change (negb (N.eqb 11 11)) with false. unfold nlen at 1. rewrite Nat2N.id.
    rewrite read_hosts_encode by assumption. rewrite Hr. reflexivity.
  - rewrite Hids. eapply Permutation_NoDup; [|exact Hnd]. apply Permutation_map, Permutation_sym, Hp.
  - intros e He. apply in_map_iff in He as (x & <- & Hx). exists (snd x).
    destruct (Horder x Hx) as [Hi Hgi]. destruct x as [i s]. cbn in *. auto.
  - intros s i Hi Hgi. rewrite Hids. eapply Permutation_in; [apply Permutation_map, Permutation_sym, Hp|].
    apply Hkeys. apply in_map_iff. exists (i, s). split; [reflexivity|]. rewrite Ef. apply in_reported. auto.
Qed.

(** ** C11 *)
Lemma factory_run_app f cs1 cs2 :
  exists f', f' = snd (fold_left (fun '(_, g) c => factory_call g c) cs1 (ROk (mk_ping 0), f)) /\
  factory_run f (cs1 ++ cs2) = factory_run f cs1 ++ factory_run f' cs2.
Proof.
  eexists. split; [reflexivity|]. revert f. generalize (ROk (mk_ping 0)).
  induction cs1 as [|c cs IH]; intros r f; [reflexivity|].
  cbn [app factory_run fold_left]. destruct (factory_call f c) as [m f'] eqn:E.
  cbn [app]. f_equal. apply IH.
Qed.

Lemma factory_counter f c : snd (factory_call f c) = if consumes_id c then (f + 1) mod 2 ^ 64 else f.
Proof. destruct c; reflexivity. Qed.

Lemma factory_id f c m : fst (factory_call f c) = ROk m -> consumes_id c = true -> cm_id m = f mod 2 ^ 16.
Proof.
  destruct c; cbn [factory_call next_id fst consumes_id]; intros H Hc; try discriminate; try (inversion H; reflexivity).
  unfold mk_register in H. destruct (N.eqb _ _); [discriminate|]. destruct (N.ltb _ _); [discriminate|].
  inversion H. reflexivity.
Qed.

Lemma mod_mod_div_pow x : (x mod 2 ^ 64) mod 2 ^ 16 = x mod 2 ^ 16.
Proof.
  change (2 ^ 64) with 18446744073709551616. change (2 ^ 16) with 65536. lia.
Qed.

Lemma factory_nth cs i : forall f c m,
  nth_error cs i = Some c -> nth_error (factory_run f cs) i = Some (ROk m) -> consumes_id c = true ->
  cm_id m = (f + N.of_nat (consumed (firstn i cs))) mod 2 ^ 16.
Proof.
  revert i. induction cs as [|c0 cs IH]; intros i f c m Hc Hm Hcons; [destruct i; discriminate|].
  cbn [factory_run] in Hm. destruct (factory_call f c0) as [m0 f'] eqn:E.
  destruct i as [|i]; cbn [nth_error firstn] in *.
  - injection Hc as ->. injection Hm as ->. rewrite (factory_id f c m) by (rewrite ?E; trivial).
    unfold consumed. cbn [filter length]. f_equal. lia.
  - rewrite (IH i f' c m Hc Hm Hcons).
    pose proof (factory_counter f c0) as Hf. rewrite E in Hf. cbn [snd] in Hf. subst f'.
    unfold consumed. cbn [filter]. destruct (consumes_id c0); [|reflexivity].
    cbn [length]. rewrite <- (mod_mod_div_pow (f + _)), <- (mod_mod_div_pow (_ + _)).
    change (2 ^ 64) with 18446744073709551616. change (2 ^ 16) with 65536. lia.
Qed.

Lemma ids_repeat cs i j ci cj mi mj :
  nth_error cs i = Some ci -> nth_error (factory_run factory_new cs) i = Some (ROk mi) -> consumes_id ci = true ->
  nth_error cs j = Some cj -> nth_error (factory_run factory_new cs) j = Some (ROk mj) -> consumes_id cj = true ->
  (cm_id mi = cm_id mj <->
   N.of_nat (consumed (firstn i cs)) mod 65536 = N.of_nat (consumed (firstn j cs)) mod 65536).
Proof.
  intros Hi Hmi Hci Hj Hmj Hcj.
  rewrite (factory_nth cs i _ _ _ Hi Hmi Hci), (factory_nth cs j _ _ _ Hj Hmj Hcj).
  unfold factory_new. rewrite !N.add_0_l. reflexivity.
Qed.

Lemma acks_echo cs i id err f :
  nth_error cs i = Some (FAck id err) -> nth_error (factory_run f cs) i = Some (ROk (mk_ack id err)).
Proof.
  revert i f. induction cs as [|c cs IH]; intros i f H; [destruct i; discriminate|].
  cbn [factory_run]. destruct (factory_call f c) as [m f'] eqn:E. destruct i as [|i]; cbn [nth_error] in *.
  - injection H as ->. inversion E. reflexivity.
  - now apply IH.
Qed.

(** A host with all 65536 ports: the announced count is zero. *)
Lemma full_port_range : exists ps, Forall (fun p => p < 2 ^ 16) ps /\ NoDup ps /\ nlen ps = 65536.
Proof.
  exists (map N.of_nat (seq 0 (N.to_nat 65536))). split; [|split].
  - apply Forall_forall. intros p Hp. apply in_map_iff in Hp as (n & <- & Hn). apply in_seq in Hn.
    change (2 ^ 16) with 65536. lia.
  - apply FinFun.Injective_map_NoDup; [intros a b H; now apply Nat2N.inj|apply seq_NoDup].
  - unfold nlen. rewrite map_length, seq_length. apply N2Nat.id.
Qed.

Lemma read_host_full h x :
  nlen (hr_ports h) = 65536 -> exists he r, read_host (host_encode h ++ x) = Some (he, r) /\ he_ports he = [].
Proof.
  intros Hl. unfold read_host, host_encode. rewrite Hl. change (u16 65536) with 0.
  set (hd := to_be 1 (hr_flags h) ++ to_be 6 (hr_mac h) ++ to_be 1 (ip_version (hr_ip h)) ++ ip_bytes (hr_ip h) ++ to_be 2 0).
  replace ((to_be 1 (hr_flags h) ++ to_be 6 (hr_mac h) ++ to_be 1 (ip_version (hr_ip h)) ++ ip_bytes (hr_ip h) ++ to_be 2 0
    ++ concat (map (to_be 2) (hr_ports h))) ++ x) with (hd ++ concat (map (to_be 2) (hr_ports h)) ++ x)
    by (unfold hd; rewrite <- !app_assoc; reflexivity).
  rewrite (take_app 26 hd) by (unfold hd; rewrite !app_length, !to_be_length, ip_bytes_length; reflexivity).
  assert (H24 : skipn 24 hd = to_be 2 0).
  { unfold hd. rewrite !app_assoc. rewrite (skip_app 24 0); [reflexivity|].
    rewrite !app_length, !to_be_length, ip_bytes_length. reflexivity. }
  rewrite H24. change (N.to_nat (value (to_be 2 0))) with O. cbn [read_ports].
  eexists. eexists. split; reflexivity.
Qed.

Lemma report_refuted :
  exists h order id req,
    wf_host h /\ NoDup (hr_ports h) /\
    forall r, read_report (cmsg_encode (mk_scan_report id req [h] order)) = Some r ->
      rp_hosts r <> [announce_host h].
Proof.
  destruct full_port_range as (ps & Hps & Hnd & Hl).
  exists {| hr_flags := 1; hr_mac := 1; hr_ip := V4 1; hr_ports := ps |}, [], 0, 0.
  split; [repeat split; assumption|]. split; [exact Hnd|].
  intros r Hr Hc.
  remember {| hr_flags := 1; hr_mac := 1; hr_ip := V4 1; hr_ports := ps |} as h eqn:Eh.
  assert (Hlh : nlen (hr_ports h) = 65536) by (rewrite Eh; exact Hl).
  unfold read_report, cmsg_encode, mk_scan_report in Hr. cbn [cm_id cm_type cm_body body_encode] in Hr.
  unfold host_table_encode in Hr. cbn [map concat] in Hr. rewrite app_nil_r in Hr.
  change (u32 (nlen [h])) with 1 in Hr.
  rewrite <- !app_assoc in Hr.
  change (to_be 2 0 ++ to_be 2 11 ++ to_be 2 0 ++ to_be 4 1 ++ host_encode h ++ table_encode []) with
    ([0; 0; 0; 11; 0; 0; 0; 0; 0; 1] ++ host_encode h ++ table_encode []) in Hr.
  rewrite (take_app 10) in Hr by reflexivity.
  change (negb (N.eqb (value (firstn 2 (skipn 2 [0; 0; 0; 11; 0; 0; 0; 0; 0; 1]))) 11)) with false in Hr.
  change (N.to_nat (value (skipn 6 [0; 0; 0; 11; 0; 0; 0; 0; 0; 1]))) with 1%nat in Hr.
  cbn [read_hosts] in Hr.
  destruct (read_host_full h (table_encode []) Hlh) as (he & rest & Hh & Hp). rewrite Hh in Hr.
  destruct (read_table rest) as [[es [|]]|]; try discriminate.
  injection Hr as <-. cbn [rp_hosts] in Hc. injection Hc as Hc. rewrite Hc in Hp. cbn [announce_host he_ports] in Hp.
  rewrite Hp in Hlh. discriminate.
Qed.

(** Reserved bits in what is sent. *)
Lemma land24_byte s : N.land s 16777215 / 16777216 mod 256 = 0.
Proof. rewrite land_mask24. change (2 ^ 24) with 16777216. lia. Qed.

Lemma sent_frame_reserved m : nth_error (amsg_encode m) 3 = Some 0.
Proof.
  unfold amsg_encode, header_encode, header_new. cbn [h_version h_service h_session h_size to_be app nth_error].
  f_equal. rewrite land_mask24. change (2 ^ 24) with 16777216. lia.
Qed.
Lemma sent_hup_reserved id s e : nth_error (cmsg_encode (mk_hup id s e)) 4 = Some 0.
Proof.
  unfold cmsg_encode, mk_hup. cbn [cm_id cm_type cm_body body_encode to_be app nth_error].
  f_equal. rewrite land_mask24. change (2 ^ 24) with 16777216. lia.
Qed.
Lemma sent_data_ack_reserved id s e : nth_error (cmsg_encode (mk_data_ack id s e)) 4 = Some 0.
Proof.
  unfold cmsg_encode, mk_data_ack. cbn [cm_id cm_type cm_body body_encode to_be app nth_error].
  f_equal. rewrite land_mask24. change (2 ^ 24) with 16777216. lia.
Qed.

(** ** Final forms *)
Lemma control_roundtrip :
  (forall b m, server_message b m -> cmsg_encode m = b /\ cmsg_from_bytes (cmsg_encode m) = ROk m) /\
  (forall b m, wf_bytes b -> cmsg_from_bytes b = ROk m -> cmsg_encode m = b).
Proof.
  split.
  - intros b m H. pose proof (server_message_encode b m H) as E. split; [exact E|].
    rewrite E. now apply accept_complete.
  - intros b m Hwf H. apply server_message_encode. now apply accept_sound.
Qed.

Lemma control_total b :
  wf_bytes b ->
  cmsg_from_bytes b <> RPanic /\ forall m, cmsg_from_bytes b = ROk m <-> server_message b m.
Proof. intros H. split; [apply cmsg_no_panic|]. intros m. now apply accept_iff. Qed.

Lemma nul_path_differs :
  exists svcs, NoDup (map fst svcs) /\ Forall wf_entry svcs /\
    forall x, read_table (table_encode svcs) <> Some (map announce svcs, x).
Proof.
  exists [(1, svc_rtsp 1 {| sa_ip := V4 1; sa_port := 554 |} [47; 0; 97]);
          (2, svc_rtsp 2 {| sa_ip := V4 2; sa_port := 554 |} [47])].
  split; [repeat constructor; cbn; intuition discriminate|]. split.
  - apply Forall_cons; [|apply Forall_cons; [|apply Forall_nil]];
      (split; [reflexivity|]; split; [left; discriminate|]; split; [|split]; cbn; intros ? H; inversion H; subst; repeat constructor).
  - intros x. vm_compute. discriminate.
Qed.
