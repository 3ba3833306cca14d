(** Discovery: maps and scan results. *)
From Coq Require Import String NArith List Bool Lia.
From Verif.Model Require Import Bytes Service Control Http Sdp Discovery.
From Verif.Spec Require Import DiscoverySpec.
Import ListNotations.
Local Open Scope N_scope.

(** ** Maps *)
Lemma NoDup_app : forall {A} (a b : list A), NoDup a -> NoDup b -> (forall x, In x a -> ~ In x b) -> NoDup (a ++ b).
Proof.
  intros A a b Ha Hb D. induction Ha as [|x a NI Ha IH]; [exact Hb|]. cbn [app]. constructor.
  - rewrite in_app_iff. intros [I|I]; [now apply NI|]. apply (D x); [now left|exact I].
  - apply IH. intros y I. apply D. now right.
Qed.
Lemma NoDup_snoc : forall {A} (l : list A) x, NoDup l -> ~ In x l -> NoDup (l ++ [x]).
Proof. intros A l x H NI. apply NoDup_app; [assumption|repeat constructor; intros []|]. intros y I [<-|[]]. contradiction. Qed.

Section Map.
  Context {K V : Type}.
  Variable dec : forall a b : K, {a = b} + {a <> b}.
  Implicit Type l : list (K * V).
  Lemma mget_mset : forall k v l k', mget dec k' (mset dec k v l) = if dec k' k then Some v else mget dec k' l.
  Proof.
    intros k v l k'. induction l as [|[a b] l IH]; cbn [mset mget].
    - destruct (dec k' k); reflexivity.
    - destruct (dec k a) as [->|N1]; cbn [mget].
      + destruct (dec k' a); reflexivity.
      + rewrite IH. destruct (dec k' a) as [->|N2]; [|reflexivity]. destruct (dec a k); [congruence|reflexivity].
  Qed.
  Lemma mget_same : forall k v l, mget dec k (mset dec k v l) = Some v.
  Proof. intros. rewrite mget_mset. destruct (dec k k); congruence. Qed.
  Lemma mget_other : forall k v l k', k' <> k -> mget dec k' (mset dec k v l) = mget dec k' l.
  Proof. intros k v l k' H. rewrite mget_mset. destruct (dec k' k); congruence. Qed.
  Lemma mget_in : forall k v l, mget dec k l = Some v -> In (k, v) l.
  Proof.
    intros k v l. induction l as [|[a b] l IH]; cbn [mget]; [discriminate|]. destruct (dec k a) as [->|]; [intros [= ->]; now left|right; auto].
  Qed.
  Lemma in_mget : forall k v l, NoDup (map fst l) -> In (k, v) l -> mget dec k l = Some v.
  Proof.
    intros k v l. induction l as [|[a b] l IH]; cbn [map fst mget]; intros N0 I; [contradiction|]. inversion N0; subst. destruct I as [E|I].
    - injection E as -> ->. destruct (dec k k); congruence.
    - destruct (dec k a) as [->|]; [|now apply IH]. exfalso. apply H1. apply in_map_iff. exists (a, v). auto.
  Qed.
  Lemma mget_none : forall k l, mget dec k l = None <-> ~ In k (map fst l).
  Proof.
    intros k l. induction l as [|[a b] l IH]; cbn [mget map fst In]; [tauto|]. destruct (dec k a) as [->|N1]; [split; [discriminate|tauto]|].
    rewrite IH. split; [intros H [E|I]; [congruence|tauto]|tauto].
  Qed.
  Lemma mset_keys : forall k v l, map fst (mset dec k v l) = map fst l \/ (map fst (mset dec k v l) = map fst l ++ [k] /\ ~ In k (map fst l)).
  Proof.
    intros k v l. induction l as [|[a b] l IH]; cbn [mset map fst]; [right; split; [reflexivity|tauto]|].
    destruct (dec k a) as [->|N1]; cbn [map fst]; [now left|]. destruct IH as [-> | [-> NI]]; [now left|]. right. split; [reflexivity|]. intros [E|I]; [congruence|tauto].
  Qed.
  Lemma mset_nodup : forall k v l, NoDup (map fst l) -> NoDup (map fst (mset dec k v l)).
  Proof.
    intros k v l H. destruct (mset_keys k v l) as [-> | [-> NI]]; [assumption|]. now apply NoDup_snoc.
  Qed.
  Lemma mset_in : forall k v l k' v', In (k', v') (mset dec k v l) -> (k' = k /\ v' = v) \/ In (k', v') l.
  Proof.
    intros k v l k' v'. induction l as [|[a b] l IH]; cbn [mset].
    - intros [[= <- <-]|[]]. auto.
    - destruct (dec k a) as [->|N1]; cbn [In].
      + intros [[= <- <-]|I]; auto.
      + intros [E|I]; [auto|]. destruct (IH I); auto.
  Qed.
End Map.

(** ** Sets of ports *)
Lemma port_add_in : forall l p q, In q (port_add l p) <-> In q l \/ q = p.
Proof.
  intros l p q. unfold port_add. destruct (existsb (N.eqb p) l) eqn:E.
  - apply existsb_exists in E. destruct E as (x & I & X). apply N.eqb_eq in X. subst x. split; [auto|]. intros [H| ->]; assumption.
  - rewrite in_app_iff. cbn [In]. intuition congruence.
Qed.
Lemma port_add_nodup : forall l p, NoDup l -> NoDup (port_add l p).
Proof.
  intros l p H. unfold port_add. destruct (existsb (N.eqb p) l) eqn:E; [assumption|].
  apply NoDup_snoc; [assumption|]. intros I.
  assert (X : existsb (N.eqb p) l = true) by (apply existsb_exists; exists p; split; [assumption|apply N.eqb_refl]). congruence.
Qed.
Lemma ports_in : forall ps l q, In q (fold_left port_add ps l) <-> In q l \/ In q ps.
Proof. induction ps as [|p ps IH]; intros l q; cbn [fold_left In]; [tauto|]. rewrite IH, port_add_in. intuition congruence. Qed.
Lemma ports_nodup : forall ps l, NoDup l -> NoDup (fold_left port_add ps l).
Proof. induction ps as [|p ps IH]; intros l H; cbn [fold_left]; [assumption|]. now apply IH, port_add_nodup. Qed.

(** ** Operations *)
Lemma scan_new_ok : scan_ok scan_new.
Proof. constructor; cbn; try constructor; contradiction. Qed.
Definition record_ok (k : hkey) (h : host) : Prop := k = (hr_mac h, hr_ip h) /\ NoDup (hr_ports h).
Lemma set_host_ok : forall s k h, scan_ok s -> record_ok k h -> scan_ok {| sc_hosts := mset hkey_dec k h (sc_hosts s); sc_services := sc_services s |}.
Proof.
  intros s k h [A B C D] R. constructor; cbn [sc_hosts sc_services]; try assumption.
  - now apply mset_nodup.
  - intros k' h' I. apply mset_in in I. destruct I as [[-> ->]|I]; [exact R|now apply B].
Qed.
Lemma get_ok : forall s k h, scan_ok s -> mget hkey_dec k (sc_hosts s) = Some h -> record_ok k h.
Proof. intros s k h O E. apply mget_in in E. now apply (ok_records s O). Qed.
Lemma add_host_ok : forall mac i f s, scan_ok s -> scan_ok (add_host mac i f s).
Proof.
  intros mac i f s O. unfold add_host. destruct (mget hkey_dec (mac, i) (sc_hosts s)) as [h|] eqn:E.
  - apply set_host_ok; [assumption|]. destruct (get_ok s _ h O E) as [A B]. split; assumption.
  - apply set_host_ok; [assumption|]. split; [reflexivity|constructor].
Qed.
Lemma add_port_ok : forall mac i p s, scan_ok s -> scan_ok (add_port mac i p s).
Proof.
  intros mac i p s O. unfold add_port. cbv zeta. apply set_host_ok; [assumption|].
  destruct (mget hkey_dec (mac, i) (sc_hosts s)) as [h|] eqn:E.
  - destruct (get_ok s _ h O E) as [A B]. split; [assumption|]. cbn [host_add_ports hr_ports]. now apply ports_nodup.
  - split; [reflexivity|]. cbn [host_add_ports host_new hr_ports]. apply ports_nodup. constructor.
Qed.
Lemma add_service_ok : forall v s, scan_ok s -> scan_ok (add_service v s).
Proof.
  intros v s [A B C D]. constructor; cbn [add_service sc_hosts sc_services]; try assumption.
  - now apply mset_nodup.
  - intros i w I. apply mset_in in I. destruct I as [[-> ->]|I]; [reflexivity|now apply D].
Qed.
Lemma merge_host_ok : forall s e, scan_ok s -> record_ok (fst e) (snd e) -> scan_ok {| sc_hosts := merge_host (sc_hosts s) e; sc_services := sc_services s |}.
Proof.
  intros s e O R. unfold merge_host. destruct (mget hkey_dec (fst e) (sc_hosts s)) as [h|] eqn:E; apply set_host_ok; try assumption.
  destruct (get_ok s _ h O E) as [A B]. split; [assumption|]. cbn [host_or_flags host_add_ports hr_ports]. now apply ports_nodup.
Qed.
Lemma merge_hosts_ok : forall l s, scan_ok s -> Forall (fun e => record_ok (fst e) (snd e)) l -> scan_ok {| sc_hosts := fold_left merge_host l (sc_hosts s); sc_services := sc_services s |}.
Proof.
  induction l as [|e l IH]; intros s O F; cbn [fold_left]; [now destruct s|]. inversion F; subst.
  apply (IH {| sc_hosts := merge_host (sc_hosts s) e; sc_services := sc_services s |}); [now apply merge_host_ok|assumption].
Qed.
Lemma merge_services_ok : forall l s, scan_ok s -> Forall (fun e => fst e = to_ident (snd e)) l ->
  scan_ok {| sc_hosts := sc_hosts s; sc_services := fold_left (fun l e => mset ident_eq_dec (fst e) (snd e) l) l (sc_services s) |}.
Proof.
  induction l as [|e l IH]; intros s O F; cbn [fold_left]; [now destruct s|]. inversion F as [|? ? Q F']; subst. rewrite Q.
  apply (IH (add_service (snd e) s)); [now apply add_service_ok|assumption].
Qed.
Lemma merge_ok : forall s o, scan_ok s -> scan_ok o -> scan_ok (merge s o).
Proof.
  intros s o S O. unfold merge.
  apply (merge_services_ok (sc_services o) {| sc_hosts := fold_left merge_host (sc_hosts o) (sc_hosts s); sc_services := sc_services s |}).
  - apply merge_hosts_ok; [assumption|]. apply Forall_forall. intros [k h] I. now apply (ok_records o O).
  - apply Forall_forall. intros [i v] I. now apply (ok_idents o O).
Qed.

(** ** What the operations do *)
Lemma add_host_flags : forall mac i f s k, host_flags (add_host mac i f s) k = if hkey_dec k (mac, i) then or_flags (host_flags s k) (Some f) else host_flags s k.
Proof.
  intros mac i f s k. unfold host_flags, add_host. destruct (mget hkey_dec (mac, i) (sc_hosts s)) as [h|] eqn:E; cbn [sc_hosts]; rewrite mget_mset.
  - destruct (hkey_dec k (mac, i)) as [->|]; [rewrite E; reflexivity|reflexivity].
  - destruct (hkey_dec k (mac, i)) as [->|]; [rewrite E; reflexivity|reflexivity].
Qed.
Lemma add_host_ports : forall mac i f s k p, has_port (add_host mac i f s) k p <-> has_port s k p.
Proof.
  intros mac i f s k p. unfold has_port, add_host. destruct (mget hkey_dec (mac, i) (sc_hosts s)) as [h|] eqn:E; cbn [sc_hosts]; rewrite mget_mset.
  - destruct (hkey_dec k (mac, i)) as [->|]; [|reflexivity]. rewrite E. split; intros (x & [= <-] & I); eexists; (split; [reflexivity|exact I]).
  - destruct (hkey_dec k (mac, i)) as [->|]; [|reflexivity]. rewrite E. split; [intros (x & [= <-] & [])|intros (x & X & _); discriminate].
Qed.
Lemma add_port_ports : forall mac i q s k p, has_port (add_port mac i q s) k p <-> has_port s k p \/ (k = (mac, i) /\ p = q).
Proof.
  intros mac i q s k p. unfold has_port, add_port. cbv zeta. cbn [sc_hosts]. rewrite mget_mset. destruct (hkey_dec k (mac, i)) as [->|N1].
  - destruct (mget hkey_dec (mac, i) (sc_hosts s)) as [h|].
    + split.
      * intros (x & [= <-] & I). cbn [host_add_ports hr_ports fold_left] in I. apply port_add_in in I. destruct I as [I| ->]; [left; eauto|right; auto].
      * intros H. eexists. split; [reflexivity|]. cbn [host_add_ports hr_ports fold_left]. apply port_add_in. destruct H as [(x & [= <-] & I)|[_ ->]]; auto.
    + split.
      * intros (x & [= <-] & I). cbn [host_add_ports host_new hr_ports fold_left] in I. apply port_add_in in I. destruct I as [[]| ->]. auto.
      * intros H. eexists. split; [reflexivity|]. cbn [host_add_ports host_new hr_ports fold_left]. apply port_add_in. destruct H as [(x & X & _)|[_ ->]]; [discriminate|auto].
  - split; [auto|]. intros [H|[-> _]]; [exact H|congruence].
Qed.
Lemma add_port_flags : forall mac i q s k, host_flags (add_port mac i q s) k = if hkey_dec k (mac, i) then or_flags (host_flags s k) (Some 0) else host_flags s k.
Proof.
  intros mac i q s k. unfold host_flags, add_port. cbv zeta. cbn [sc_hosts]. rewrite mget_mset. destruct (hkey_dec k (mac, i)) as [->|]; [|reflexivity].
  destruct (mget hkey_dec (mac, i) (sc_hosts s)) as [h|]; cbn [option_map or_flags host_add_ports hr_flags host_new]; [now rewrite N.lor_0_r|reflexivity].
Qed.
Lemma add_service_at : forall v s i, service_at (add_service v s) i = if ident_eq_dec i (to_ident v) then Some v else service_at s i.
Proof. intros v s i. unfold service_at, add_service. cbn [sc_services]. apply mget_mset. Qed.

Definition combine (a b : option host) : option host :=
  match a, b with
  | Some x, Some y => Some (host_or_flags (host_add_ports x (hr_ports y)) (hr_flags y))
  | Some x, None => Some x
  | None, y => y
  end.
Lemma merge_get : forall l hs k, NoDup (map fst l) -> mget hkey_dec k (fold_left merge_host l hs) = combine (mget hkey_dec k hs) (mget hkey_dec k l).
Proof.
  induction l as [|[k0 h0] l IH]; intros hs k N0; cbn [fold_left mget].
  - destruct (mget hkey_dec k hs); reflexivity.
  - cbn [map fst] in N0. inversion N0; subst. rewrite IH by assumption. unfold merge_host. cbn [fst snd].
    destruct (hkey_dec k k0) as [->|N1].
    + assert (X : mget hkey_dec k0 l = None) by now apply mget_none. rewrite X.
      destruct (mget hkey_dec k0 hs) as [h|]; rewrite mget_same; reflexivity.
    + destruct (mget hkey_dec k0 hs) as [h|]; rewrite mget_other by assumption; reflexivity.
Qed.
Lemma merge_flags : forall s o k, scan_ok o -> host_flags (merge s o) k = or_flags (host_flags s k) (host_flags o k).
Proof.
  intros s o k O. unfold host_flags, merge. cbn [sc_hosts]. rewrite merge_get by apply O.
  destruct (mget hkey_dec k (sc_hosts s)) as [x|], (mget hkey_dec k (sc_hosts o)) as [y|]; reflexivity.
Qed.
Lemma merge_ports : forall s o k p, scan_ok o -> (has_port (merge s o) k p <-> has_port s k p \/ has_port o k p).
Proof.
  intros s o k p O. unfold has_port, merge. cbn [sc_hosts]. rewrite merge_get by apply O.
  destruct (mget hkey_dec k (sc_hosts s)) as [x|], (mget hkey_dec k (sc_hosts o)) as [y|]; cbn [combine].
  - split.
    + intros (h & [= <-] & I). cbn [host_or_flags host_add_ports hr_ports] in I. apply ports_in in I. destruct I; [left|right]; eauto.
    + intros [(h & [= <-] & I)|(h & [= <-] & I)]; (eexists; split; [reflexivity|]; cbn [host_or_flags host_add_ports hr_ports]; apply ports_in; auto).
  - split; [auto|]. intros [H|(h & X & _)]; [exact H|discriminate].
  - split; [auto|]. intros [(h & X & _)|H]; [discriminate|exact H].
  - split; [auto|]. intros [H|H]; exact H.
Qed.
Lemma merge_services_get : forall (l m : list (ident * service)) i, NoDup (map fst l) ->
  mget ident_eq_dec i (fold_left (fun l e => mset ident_eq_dec (fst e) (snd e) l) l m) = match mget ident_eq_dec i l with Some v => Some v | None => mget ident_eq_dec i m end.
Proof.
  induction l as [|[i0 v0] l IH]; intros m i N0; cbn [fold_left mget]; [reflexivity|]. cbn [map fst] in N0. inversion N0; subst. rewrite IH by assumption. cbn [fst snd].
  destruct (ident_eq_dec i i0) as [->|N1].
  - assert (X : mget ident_eq_dec i0 l = None) by now apply mget_none. rewrite X. apply mget_same.
  - rewrite mget_other by assumption. reflexivity.
Qed.
Lemma merge_services : forall s o i, scan_ok o -> service_at (merge s o) i = match service_at o i with Some v => Some v | None => service_at s i end.
Proof. intros s o i O. unfold service_at, merge. cbn [sc_services]. apply merge_services_get, O. Qed.

(** ** Iteration *)
Definition addrs_of (h : host) : list (N * saddr) := map (fun p => (hr_mac h, {| sa_ip := hr_ip h; sa_port := p |})) (hr_ports h).
Definition left_of (it : sock_iter) : list (N * saddr) :=
  match si_current it with
  | None => []
  | Some (mac, i, ps) => map (fun p => (mac, {| sa_ip := i; sa_port := p |})) ps ++ flat_map addrs_of (si_hosts it)
  end.
Lemma sock_next_spec : forall hosts cur, let it := {| si_hosts := hosts; si_current := cur |} in
  fst (sock_next_loop hosts cur) = hd_error (left_of it) /\ left_of (snd (sock_next_loop hosts cur)) = tl (left_of it).
Proof.
  induction hosts as [|h hosts IH]; intros cur; cbv zeta.
  - destruct cur as [[[mac i] [|p ps]]|]; split; reflexivity.
  - destruct cur as [[[mac i] [|p ps]]|]; cbn [sock_next_loop]; try (split; reflexivity).
    destruct (IH (Some (host_addrs h))) as [A B]. cbv zeta in A, B. split; [rewrite A|rewrite B]; reflexivity.
Qed.
Lemma sock_collect_spec : forall n it, (length (left_of it) < n)%nat -> sock_collect n it = Some (left_of it).
Proof.
  induction n as [|n IH]; intros it H; [lia|]. cbn [sock_collect]. unfold sock_next. destruct it as [hosts cur]. cbn [si_hosts si_current].
  destruct (sock_next_spec hosts cur) as [A B]. cbv zeta in A, B. destruct (sock_next_loop hosts cur) as [o it']. cbn [fst snd] in A, B. subst o.
  destruct (left_of {| si_hosts := hosts; si_current := cur |}) as [|a l]; cbn [hd_error tl length] in *; [reflexivity|]. rewrite IH by (rewrite B; lia). rewrite B. reflexivity.
Qed.
Lemma sock_new_left : forall s, left_of (sock_new s) = flat_map addrs_of (hosts_of s).
Proof. intros s. unfold sock_new. destruct (hosts_of s); reflexivity. Qed.
Lemma addrs_length : forall hs, length (flat_map addrs_of hs) = length (flat_map hr_ports hs).
Proof. induction hs as [|h hs IH]; [reflexivity|]. cbn [flat_map]. rewrite !app_length, IH. unfold addrs_of. now rewrite map_length. Qed.
Lemma socket_addrs_eq : forall s, sock_collect (S (length (flat_map hr_ports (hosts_of s)))) (sock_new s) = Some (flat_map addrs_of (hosts_of s)) /\ socket_addrs s = flat_map addrs_of (hosts_of s).
Proof.
  intros s. assert (E : sock_collect (S (length (flat_map hr_ports (hosts_of s)))) (sock_new s) = Some (flat_map addrs_of (hosts_of s))).
  { rewrite sock_collect_spec; rewrite sock_new_left; [reflexivity|]. rewrite addrs_length. lia. }
  split; [exact E|]. unfold socket_addrs. now rewrite E.
Qed.
Lemma socket_addrs_in : forall s, scan_ok s -> forall mac a, In (mac, a) (socket_addrs s) <-> has_port s (mac, sa_ip a) (sa_port a).
Proof.
  intros s O mac a. destruct (socket_addrs_eq s) as [_ ->]. rewrite in_flat_map. unfold has_port, hosts_of. split.
  - intros (h & Ih & Ia). apply in_map_iff in Ih. destruct Ih as ([k h'] & E & Ik). cbn in E. subst h'. destruct (ok_records s O k h Ik) as [-> _].
    unfold addrs_of in Ia. apply in_map_iff in Ia. destruct Ia as (p & [= <- <-] & Ip). exists h. split; [|exact Ip]. apply in_mget; [apply O|exact Ik].
  - intros (h & G & Ip). pose proof (mget_in _ _ _ _ G) as Ik. exists h. split; [apply in_map_iff; exists (mac, sa_ip a, h); auto|].
    destruct (ok_records s O _ h Ik) as [E _]. injection E as -> Ei. unfold addrs_of. apply in_map_iff. exists (sa_port a). split; [|exact Ip]. destruct a as [i p]. cbn in *. now rewrite <- Ei.
Qed.
Lemma addrs_nodup : forall hs : list (hkey * host), NoDup (map fst hs) -> (forall k h, In (k, h) hs -> record_ok k h) -> NoDup (flat_map addrs_of (map snd hs)).
Proof.
  induction hs as [|[k h] hs IH]; intros N0 R; cbn [map snd flat_map]; [constructor|]. cbn [map fst] in N0. inversion N0; subst.
  destruct (R k h (or_introl eq_refl)) as [Ek Np]. apply NoDup_app.
  - unfold addrs_of. clear -Np. induction Np as [|p ps NI Np IH]; cbn [map]; constructor; [|exact IH]. rewrite in_map_iff. intros (q & [= ->] & I). contradiction.
  - apply IH; [assumption|]. intros k' h' I. apply R. now right.
  - intros x I J. unfold addrs_of in I. apply in_map_iff in I. destruct I as (p & <- & _). apply in_flat_map in J. destruct J as (h' & Ih & Ia).
    apply in_map_iff in Ih. destruct Ih as ([k' h''] & E & Ik). cbn in E. subst h''. destruct (R k' h' (or_intror Ik)) as [Ek' _].
    unfold addrs_of in Ia. apply in_map_iff in Ia. destruct Ia as (q & [= E1 E2 _] & _). apply H1. rewrite Ek. apply in_map_iff. exists (k', h'). split; [|exact Ik]. cbn [fst]. congruence.
Qed.
Lemma socket_addrs_nodup : forall s, scan_ok s -> NoDup (socket_addrs s).
Proof. intros s O. destruct (socket_addrs_eq s) as [_ ->]. apply addrs_nodup; [apply O|]. exact (ok_records s O). Qed.
