(** What the decoders return. *)
From Coq Require Import NArith List Bool Lia.
From Coq Require Import ZArith ZifyBool ZifyNat ZifyN.
From Verif.Model Require Import Bytes Utf8 Text Http.
From Verif.Spec Require Import HttpSpec.
From Verif.Proofs Require Import BytesFacts TextProofs HttpLines HttpLaws.
Import ListNotations.
Local Open Scope N_scope.

(** ** Header fields *)
Definition got (o : option (list hfield)) : list hfield := match o with Some l => l | None => [] end.
Lemma beq_sym a b : beq a b = beq b a.
Proof. destruct (beq a b) eqn:E, (beq b a) eqn:F; try reflexivity; apply beq_spec in E || apply beq_spec in F; subst; rewrite beq_refl in *; discriminate. Qed.
Lemma map_get_remove k k' m : map_get k (map_remove k' m) = if beq k' k then None else map_get k m.
Proof.
  unfold map_remove. induction m as [|[q v] m IH]; cbn [filter map_get fst]; [now destruct (beq k' k)|].
  destruct (beq k' q) eqn:E; cbn [negb].
  - rewrite IH. apply beq_spec in E. subst q. destruct (beq k' k) eqn:F; [reflexivity|]. rewrite beq_sym, F. reflexivity.
  - cbn [map_get]. rewrite IH. destruct (beq k q) eqn:F; [|reflexivity]. apply beq_spec in F. subst q. now rewrite E.
Qed.
Lemma map_get_insert k k' v m : map_get k (map_insert k' v m) = if beq k' k then Some v else map_get k m.
Proof.
  unfold map_insert. cbn [map_get]. rewrite map_get_remove, (beq_sym k k'). destruct (beq k' k); reflexivity.
Qed.

Section Fields.
Variable lc : bytes -> bytes.
Lemma fields_step h o :
  (forall k, got (map_get k (f_map h)) = filter (fun g => beq k (lc (hf_name g))) (f_list h)) ->
  forall k, got (map_get k (f_map (fop_apply lc h o))) = filter (fun g => beq k (lc (hf_name g))) (f_list (fop_apply lc h o)).
Proof.
  intros H k. destruct o as [f|f]; cbn [fop_apply fields_add fields_set f_map f_list].
  - rewrite map_get_insert, map_get_remove, filter_app. cbn [filter]. rewrite (beq_sym k (lc (hf_name f))).
    destruct (beq (lc (hf_name f)) k) eqn:E.
    + apply beq_spec in E. subst k. cbn [got]. f_equal. rewrite <- H. destruct (map_get _ _); reflexivity.
    + rewrite app_nil_r. apply H.
  - rewrite map_get_insert, filter_app. cbn [filter]. rewrite (beq_sym k (lc (hf_name f))). destruct (beq (lc (hf_name f)) k) eqn:E.
    + apply beq_spec in E. subst k. cbn [got]. 
      assert (X : filter (fun g => beq (lc (hf_name f)) (lc (hf_name g))) (filter (fun g => negb (beq (lc (hf_name f)) (lc (hf_name g)))) (f_list h)) = []);
        [|now rewrite X].
      clear H. induction (f_list h) as [|g l IH]; [reflexivity|]. cbn [filter]. destruct (beq (lc (hf_name f)) (lc (hf_name g))) eqn:F; cbn [negb filter]; [exact IH|].
      now rewrite F.
    + rewrite app_nil_r, H. clear H; induction (f_list h) as [|g l IH]; [reflexivity|]. cbn [filter].
      destruct (beq k (lc (hf_name g))) eqn:F; [|destruct (negb _); cbn [filter]; rewrite ?F; exact IH].
      apply beq_spec in F. subst k. rewrite E. cbn [negb filter]. rewrite beq_refl. now rewrite IH.
Qed.
Lemma fields_inv os k : got (map_get k (f_map (fields_of lc os))) = filter (fun g => beq k (lc (hf_name g))) (f_list (fields_of lc os)).
Proof.
  unfold fields_of. assert (X : forall h, (forall k, got (map_get k (f_map h)) = filter (fun g => beq k (lc (hf_name g))) (f_list h)) ->
    forall k, got (map_get k (f_map (fold_left (fop_apply lc) os h))) = filter (fun g => beq k (lc (hf_name g))) (f_list (fold_left (fop_apply lc) os h))).
  { induction os as [|o os IH]; intros h H; [exact H|]. cbn [fold_left]. apply IH. now apply fields_step. }
  apply X. reflexivity.
Qed.
Lemma fields_listed os : f_list (fields_of lc os) = listed lc os.
Proof.
  unfold fields_of, listed.
  assert (X : forall h l, f_list h = l -> f_list (fold_left (fop_apply lc) os h) =
    fold_left (fun l o => match o with FAdd f => l ++ [f] | FSet f => filter (fun g => negb (same_name lc (hf_name f) g)) l ++ [f] end) os l).
  { induction os as [|o os IH]; intros h l <-; [reflexivity|]. cbn [fold_left]. apply IH. destruct o; reflexivity. }
  now apply X.
Qed.
Lemma fields_lookup os name :
  fields_get lc name (fields_of lc os) = filter (same_name lc name) (listed lc os).
Proof. rewrite <- fields_listed. exact (fields_inv os (lc name)). Qed.
End Fields.

(** ** Headers *)
Lemma strip_length chars : (forall w, In w chars -> w <> []) -> forall f s, (length (strip_fuel f chars s) <= length s)%nat.
Proof.
  intros Hc. induction f as [|f IH]; intros s; cbn [strip_fuel]; [lia|]. destruct (find (fun w => starts_with w s) chars) as [w|]; [|lia].
  specialize (IH (skipn (length w) s)). rewrite skipn_length in IH. lia.
Qed.
Lemma white_nonempty w : In w white_chars -> w <> [].
Proof. intros H ->. revert H. vm_compute. intros H. repeat (destruct H as [H|H]; [discriminate|]). exact H. Qed.
Lemma continuation_white l : continuation l = white_first l.
Proof.
  unfold continuation, white_first, trim_start. destruct l as [|b l']; [reflexivity|]. set (l := b :: l') in *. cbn [length strip_fuel].
  destruct (existsb (fun w => starts_with w l) white_chars) eqn:E.
  - change (length l) with (S (length l')). cbn [strip_fuel]. destruct (find (fun w => starts_with w l) white_chars) as [w|] eqn:F.
    + apply find_some in F as [F1 F2]. pose proof (strip_length white_chars white_nonempty (length l') (skipn (length w) l)) as X.
      destruct (beq _ l) eqn:G; [|reflexivity]. apply beq_spec in G. rewrite G, skipn_length in X.
      pose proof (white_nonempty w F1). destruct w; [congruence|]. unfold l in X. cbn [length] in X. lia.
    + exfalso. apply existsb_exists in E as (w & W1 & W2). pose proof (find_none _ _ F w W1) as Y. cbn beta in Y. congruence.
  - change (length l) with (S (length l')). cbn [strip_fuel]. destruct (find (fun w => starts_with w l) white_chars) as [w|] eqn:F.
    + apply find_some in F as [F1 F2]. rewrite (proj2 (existsb_exists _ _)) in E; [discriminate|eauto].
    + now rewrite beq_refl.
Qed.

Definition one (f : bytes) : list bytes := match f with [] => [] | _ => [f] end.
Fixpoint joined (f : bytes) (ls : list bytes) : list bytes :=
  match ls with
  | [] => one f
  | l :: ls' => if white_first l then joined (f ++ l) ls' else one f ++ joined l ls'
  end.
Lemma joined_prefix ls : forall f l, l <> [] -> joined (f ++ l) ls = match joined l ls with g :: gs => (f ++ g) :: gs | [] => [f] end.
Proof.
  induction ls as [|x ls IH]; intros f l Hl; cbn [joined].
  - destruct l; [congruence|]. cbn [one]. destruct f; reflexivity.
  - destruct (white_first x).
    + rewrite <- app_assoc. apply IH. destruct l; [congruence|discriminate].
    + destruct l; [congruence|]. cbn [one app]. destruct f; reflexivity.
Qed.
Lemma joined_unfold ls : Forall (fun l => l <> []) ls -> forall f, f <> [] -> unfold_lines (f :: ls) = joined f ls.
Proof.
  induction 1 as [|l ls Hl Hls IH]; intros f Hf.
  - cbn. destruct f; [congruence|reflexivity].
  - change (unfold_lines (f :: l :: ls)) with (if continuation l then match unfold_lines (l :: ls) with g :: gs => (f ++ g) :: gs | [] => [f] end else f :: unfold_lines (l :: ls)).
    rewrite continuation_white, (IH l Hl). cbn [joined]. destruct (white_first l).
    + now rewrite joined_prefix.
    + destruct f; [congruence|reflexivity].
Qed.
Lemma joined_start ls : Forall (fun l => l <> []) ls -> joined [] ls = unfold_lines ls.
Proof.
  destruct 1 as [|l ls Hl Hls]; [reflexivity|]. cbn [joined one app]. rewrite (joined_unfold ls Hls l Hl). now destruct (white_first l).
Qed.

Lemma with_ends_cons l ls r : with_ends (l :: ls) ++ r = l ++ [13; 10] ++ with_ends ls ++ r.
Proof. unfold with_ends. cbn [map concat]. now rewrite <- !app_assoc. Qed.
Lemma good_pos maxlen l : good_line maxlen l -> 0 < maxlen.
Proof. intros (_ & G & _). lia. Qed.
Lemma line_good maxlen l r : good_line maxlen l -> line_decode crlf maxlen [] (l ++ [13; 10] ++ r) = Item l [] r.
Proof. intros G. rewrite line_decode_cut by exact (buf_nil _ (good_pos _ l G)). rewrite app_nil_l. now rewrite (cut_good _ _ r G). Qed.

Section Header.
Variable lc : bytes -> bytes.
Variables maxlen maxlines : N.

Definition with_fields (h : rheader) (fs : hfields) : rheader :=
  {| rh_protocol := rh_protocol h; rh_version := rh_version h; rh_code := rh_code h; rh_line := rh_line h; rh_fields := fs |}.
Definition adds (fs : list bytes) (h : rheader) : rheader := fold_left (fun h f => header_add lc f h) fs h.
Lemma adds_fields fs : forall h, adds fs h = with_fields h (fold_left (fop_apply lc) (map (fun f => FAdd (field_parse f)) fs) (rh_fields h)).
Proof.
  induction fs as [|f fs IH]; intros h; [destruct h; reflexivity|]. cbn [adds fold_left map]. change (adds fs (header_add lc f h) = _) || fold (adds fs (header_add lc f h)).
  rewrite IH. reflexivity.
Qed.

Lemma white_nil : white_first [] = false.
Proof. reflexivity. Qed.

(** Lines of the field section. *)
Definition hstate (h : rheader) (f : bytes) (n : N) : hdec := {| hd_buf := []; hd_header := Some h; hd_field := f; hd_lines := n |}.
Lemma header_field_line fuel h f n l r : good_line maxlen l -> n < maxlines -> l <> [] ->
  header_loop lc (S fuel) maxlen maxlines (hstate h f n) (l ++ [13; 10] ++ r) =
  header_loop lc fuel maxlen maxlines
    (if white_first l then hstate h (f ++ l) (n + 1) else hstate (adds (one f) h) l (n + 1)) r.
Proof.
  intros G Hn Hl. cbn [header_loop hstate hd_buf hd_header hd_field hd_lines]. rewrite (line_good _ l r G).
  destruct (N.ltb_spec maxlines (n + 1)); [lia|]. destruct l as [|b l]; [congruence|].
  destruct (white_first (b :: l)); cbn [negb andb]; [reflexivity|]. destruct f; reflexivity.
Qed.
Lemma header_run ls : forall fuel h f n rest, Forall (good_line maxlen) ls -> Forall (fun l => l <> []) ls -> good_line maxlen [] ->
  n + nlen ls + 1 <= maxlines -> (length (with_ends ls ++ crlf ++ rest) < fuel)%nat ->
  header_loop lc fuel maxlen maxlines (hstate h f n) (with_ends ls ++ [13; 10] ++ rest) = Item (adds (joined f ls) h) hdec_new rest.
Proof.
  induction ls as [|l ls IH]; intros fuel h f n rest G NE G0 Hn Hf.
  - cbn [with_ends map concat app]. destruct fuel as [|fuel]; [lia|]. cbn [header_loop hstate hd_buf hd_header hd_field hd_lines].
    pose proof (line_good _ [] rest G0) as E. cbn [app] in E. rewrite E. cbn in Hn. destruct (N.ltb_spec maxlines (n + 1)); [lia|].
    rewrite white_nil. cbn [negb andb joined]. destruct f; reflexivity.
  - rewrite with_ends_cons in *. destruct fuel as [|fuel]; [lia|]. inversion G as [|? ? G1 G2]; subst. inversion NE as [|? ? N1 N2]; subst.
    unfold nlen in Hn. cbn [length] in Hn. rewrite header_field_line by (assumption || lia). cbn [joined].
    unfold crlf in *. rewrite !app_length in Hf. cbn [length] in Hf.
    destruct (white_first l); (rewrite IH; [|assumption|assumption|assumption|unfold nlen; lia|unfold crlf in *; rewrite !app_length; cbn [length]; lia]); [reflexivity|].
    unfold adds. now rewrite fold_left_app.
Qed.
Lemma header_status fuel s h l r : hd_buf s = [] -> hd_header s = None -> good_line maxlen l -> hd_lines s < maxlines -> status_parse l = Some h ->
  header_loop lc (S fuel) maxlen maxlines s (l ++ [13; 10] ++ r) = header_loop lc fuel maxlen maxlines (hstate h (hd_field s) (hd_lines s + 1)) r.
Proof.
  intros E1 E2 G Hn Hs. cbn [header_loop]. rewrite E1, E2, (line_good _ l r G), Hs. destruct (N.ltb_spec maxlines (hd_lines s + 1)); [lia|]. reflexivity.
Qed.
Lemma header_exact l0 h ls rest : good_line maxlen l0 -> status_parse l0 = Some h -> Forall (good_line maxlen) ls -> Forall (fun l => l <> []) ls ->
  nlen ls + 2 <= maxlines ->
  header_decode lc maxlen maxlines hdec_new (with_ends (l0 :: ls) ++ [13; 10] ++ rest) =
  Item (with_fields h (fields_of lc (map (fun l => FAdd (field_parse l)) (unfold_lines ls)))) hdec_new rest.
Proof.
  intros G Hs Gs NE Hn. unfold header_decode. rewrite with_ends_cons. rewrite (header_status _ _ h) by (auto; cbn; lia).
  assert (G0 : good_line maxlen []). { split; [reflexivity|]. split; [destruct G as (_ & G & _); cbn; lia|reflexivity]. }
  change (hd_field hdec_new) with (@nil N). change (hd_lines hdec_new + 1) with 1.
  rewrite header_run; [|assumption|assumption|assumption|lia|unfold crlf in *; rewrite !app_length; cbn [length]; lia].
  rewrite (joined_start _ NE), adds_fields. f_equal.
  assert (Hf : rh_fields h = fields_new).
  { unfold status_parse in Hs. destruct (read_until 47 l0) as [p r]. destruct (match_char 47 r) as [r1|]; [|discriminate]. destruct (read_word r1) as [v r2].
    destruct (read_word r2) as [c r3]. destruct (parse_uint _ _ c); [|discriminate]. injection Hs as <-. reflexivity. }
  now rewrite Hf.
Qed.

(** Too many lines, a line that is too long, a bad status line. *)
Lemma header_fields_go ls : forall fuel h f n r, Forall (good_line maxlen) ls -> Forall (fun l => l <> []) ls -> n + nlen ls <= maxlines ->
  (length (with_ends ls ++ r) < fuel)%nat ->
  exists fuel' h' f', (length r < fuel')%nat /\
    header_loop lc fuel maxlen maxlines (hstate h f n) (with_ends ls ++ r) = header_loop lc fuel' maxlen maxlines (hstate h' f' (n + nlen ls)) r.
Proof.
  induction ls as [|l ls IH]; intros fuel h f n r G NE Hn Hf.
  - exists fuel, h, f. cbn [with_ends map concat app] in *. split; [exact Hf|]. replace (n + nlen []) with n by (cbn; lia). reflexivity.
  - rewrite with_ends_cons in *. destruct fuel as [|fuel]; [lia|]. inversion G as [|? ? G1 G2]; subst. inversion NE as [|? ? N1 N2]; subst.
    unfold nlen in *. cbn [length] in *. rewrite header_field_line by (assumption || lia). unfold crlf in *. rewrite !app_length in Hf. cbn [length] in Hf.
    replace (n + N.of_nat (S (length ls))) with (n + 1 + N.of_nat (length ls)) by lia.
    destruct (white_first l); apply IH; try assumption; try lia; rewrite app_length; lia.
Qed.
Definition refused_next (n : N) (r : bytes) : Prop := cut_line maxlen r = CRefused \/ (n = maxlines /\ exists l r', r = l ++ [13; 10] ++ r' /\ good_line maxlen l).
Lemma header_stop fuel s r : hd_buf s = [] -> 0 < maxlen -> refused_next (hd_lines s) r ->
  header_loop lc (S fuel) maxlen maxlines s r = Fail.
Proof.
  intros Eb Hm [H|(E & l & r' & -> & G)]; cbn [header_loop]; rewrite Eb.
  - rewrite line_decode_cut by now apply buf_nil. rewrite app_nil_l. now rewrite H.
  - rewrite (line_good _ l r' G). rewrite E. destruct (N.ltb_spec maxlines (maxlines + 1)); [reflexivity|lia].
Qed.
Lemma header_refused ls r : 0 < maxlen -> Forall (good_line maxlen) ls -> Forall (fun l => l <> []) (tl ls) ->
  nlen ls <= maxlines -> (match ls with l0 :: _ => status_parse l0 <> None | [] => True end) -> refused_next (nlen ls) r ->
  header_decode lc maxlen maxlines hdec_new (with_ends ls ++ r) = Fail.
Proof.
  intros Hm G NE Hn Hs R. unfold header_decode. destruct ls as [|l0 ls].
  - cbn [with_ends map concat app]. apply header_stop; [reflexivity|exact Hm|exact R].
  - destruct (status_parse l0) as [h|] eqn:Eh; [|congruence]. inversion G as [|? ? G1 G2]; subst. rewrite with_ends_cons.
    unfold nlen in *. cbn [length tl] in *. rewrite (header_status _ _ h) by (auto; cbn; lia).
    change (hd_lines hdec_new + 1) with 1.
    destruct (header_fields_go ls (length (l0 ++ crlf ++ with_ends ls ++ r)) h (hd_field hdec_new) 1 r G2 NE) as (f' & h' & g' & L & E);
      [unfold nlen; lia|unfold crlf in *; rewrite !app_length; cbn [length]; lia|]. unfold crlf in E. rewrite E.
    destruct f' as [|f']; [lia|]. apply header_stop; [reflexivity|exact Hm|]. cbn [hstate hd_lines]. unfold nlen.
    replace (1 + N.of_nat (length ls)) with (N.of_nat (S (length ls))) by lia. exact R.
Qed.
Lemma header_bad_status l r : good_line maxlen l -> status_parse l = None -> header_decode lc maxlen maxlines hdec_new (l ++ [13; 10] ++ r) = Fail.
Proof.
  intros G Hs. unfold header_decode. cbn [header_loop hdec_new hd_buf hd_header]. rewrite (line_good _ l r G), Hs. now destruct (maxlines <? _).
Qed.
End Header.
