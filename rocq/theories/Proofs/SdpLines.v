(** Session descriptions: the nested loops are one pass over the lines. *)
From Coq Require Import String NArith ZArith List Bool Lia ZifyBool ZifyNat ZifyN.
From Verif.Model Require Import Bytes Text Http Sdp.
From Verif.Spec Require Import SdpSpec.
Import ListNotations.
Local Open Scope N_scope.

Lemma white_eq b : visible_char b = negb (latin_white b).
Proof. unfold visible_char, latin_white. f_equal. cbn [existsb]. lia. Qed.
Lemma of_type_first c l : of_type c l = match first_char l with Some x => x =? c | None => false end.
Proof.
  unfold of_type. induction l as [|b l IH]; [reflexivity|]. cbn [filter first_char]. rewrite white_eq.
  destruct (latin_white b); cbn [negb]; [exact IH|reflexivity].
Qed.
Lemma some_text_first l : some_text l = match first_char l with Some _ => true | None => false end.
Proof.
  unfold some_text. induction l as [|b l IH]; [reflexivity|]. cbn [existsb first_char]. rewrite white_eq.
  destruct (latin_white b); cbn [negb orb]; [exact IH|reflexivity].
Qed.

Lemma take_line_some : forall s cap n l r,
  take_line cap n s = Some (l, r) ->
  (s = [] /\ l = [] /\ r = []) \/ (s <> [] /\ lines s = l :: lines r /\ (length r < length s)%nat).
Proof.
  induction s as [|b s IH]; intros cap n l r H; cbn [take_line] in H.
  - inversion H. now left.
  - right. split; [discriminate|].
    destruct (cap <=? n); [discriminate|].
    cbn [lines]. unfold line_end. destruct ((b =? 13) || (b =? 10)).
    + inversion H; subst. cbn [length]. split; [reflexivity|lia].
    + destruct (take_line cap (n + 1) s) as [[l1 r1]|] eqn:E; [|discriminate].
      inversion H; subst.
      destruct (IH _ _ _ _ E) as [(-> & -> & ->)|(Hn & -> & Hl)]; cbn [lines length]; split; try reflexivity; lia.
Qed.
Lemma take_line_fits : forall s cap n,
  fits cap n s = match take_line cap n s with
                 | Some (l, r) => (n + nlen l <=? cap) && fits cap 0 r
                 | None => false
                 end.
Proof.
  induction s as [|b s IH]; intros cap n; cbn [take_line fits].
  - unfold nlen; cbn [length]. destruct (N.leb_spec n cap); destruct (N.leb_spec (n + N.of_nat 0) cap); try lia; cbn; try reflexivity.
  - unfold line_end. destruct (N.leb_spec cap n) as [Hc|Hc].
    + destruct ((b =? 13) || (b =? 10)); destruct (N.ltb_spec n cap); try lia; reflexivity.
    + destruct (N.ltb_spec n cap); [|lia]. cbn [andb].
      destruct ((b =? 13) || (b =? 10)).
      * unfold nlen; cbn [length]. destruct (N.leb_spec (n + N.of_nat 0) cap); [reflexivity|lia].
      * rewrite IH. destruct (take_line cap (n + 1) s) as [[l r]|]; [|reflexivity].
        f_equal. unfold nlen. cbn [length]. rewrite Nat2N.inj_succ. f_equal. lia.
Qed.
Lemma take_line_len : forall s cap n l r, take_line cap n s = Some (l, r) -> n <= cap -> n + nlen l <= cap.
Proof.
  induction s as [|b s IH]; intros cap n l r H Hn; cbn [take_line] in H.
  - inversion H. unfold nlen; cbn [length]. lia.
  - destruct (N.leb_spec cap n); [discriminate|].
    destruct ((b =? 13) || (b =? 10)).
    + inversion H. unfold nlen; cbn [length]. lia.
    + destruct (take_line cap (n + 1) s) as [[l1 r1]|] eqn:E; [|discriminate]. inversion H; subst.
      apply IH in E; [|lia]. unfold nlen in *. cbn [length]. lia.
Qed.
Lemma next_cases : forall cap s,
  match next_line cap s with
  | LNone => s = [] /\ lines s = [] /\ fits cap 0 s = true
  | LErr => fits cap 0 s = false
  | LLine l r => lines s = l :: lines r /\ (length r < length s)%nat /\ fits cap 0 s = fits cap 0 r
  end.
Proof.
  intros cap s. destruct s as [|b s]; cbn [next_line].
  - repeat split. cbn [fits]. apply N.leb_le. lia.
  - pose proof (take_line_fits (b :: s) cap 0) as F.
    destruct (take_line cap 0 (b :: s)) as [[l r]|] eqn:E; [|exact F].
    pose proof (take_line_len _ _ _ _ _ E ltac:(lia)) as L.
    destruct (take_line_some _ _ _ _ _ E) as [(? & _)|(_ & H1 & H2)]; [discriminate|].
    split; [exact H1|split; [exact H2|]].
    rewrite F. destruct (N.leb_spec (0 + nlen l) cap); [reflexivity|lia].
Qed.

(** Lines shorter than the limit fit; a line longer than the limit does not. *)
Lemma fits_short_gen : forall s cap n,
  match lines s with
  | [] => n <= cap
  | l :: ls => n + nlen l < cap /\ Forall (fun l => nlen l < cap) ls
  end -> fits cap n s = true.
Proof.
  induction s as [|b s IH]; intros cap n; cbn [lines fits].
  - apply N.leb_le.
  - destruct (line_end b).
    + intros [H1 H2]. unfold nlen in H1; cbn [length] in H1.
      apply andb_true_intro. split; [apply N.ltb_lt; lia|]. apply IH.
      destruct (lines s); [lia|]. inversion H2; subst. split; [lia|assumption].
    + destruct (lines s) as [|l ls] eqn:E; intros [H1 H2]; unfold nlen in H1; cbn [length] in H1;
        apply andb_true_intro; (split; [apply N.ltb_lt; lia|]); apply IH; rewrite ?E.
      * lia.
      * split; [unfold nlen; lia|assumption].
Qed.
Lemma fits_short : forall s cap, 0 < cap -> Forall (fun l => nlen l < cap) (lines s) -> fits cap 0 s = true.
Proof.
  intros s cap Hc H. apply fits_short_gen. destruct (lines s); [lia|]. inversion H; subst. split; [lia|assumption].
Qed.
Lemma fits_long_gen : forall s cap n,
  fits cap n s = true ->
  match lines s with
  | [] => True
  | l :: ls => n + nlen l <= cap /\ Forall (fun l => nlen l <= cap) ls
  end.
Proof.
  induction s as [|b s IH]; intros cap n; cbn [lines fits]; [trivial|].
  destruct (line_end b); intros H; apply andb_true_iff in H; destruct H as [H1 H2]; apply N.ltb_lt in H1; apply IH in H2.
  - split; [unfold nlen; cbn [length]; lia|].
    destruct (lines s); constructor; [lia|tauto].
  - destruct (lines s) as [|l ls].
    + split; [unfold nlen; cbn [length]; lia|constructor].
    + destruct H2 as [H2 H3]. split; [|assumption]. unfold nlen in *. cbn [length]. lia.
Qed.
Lemma fits_long : forall s cap, Exists (fun l => cap < nlen l) (lines s) -> fits cap 0 s = false.
Proof.
  intros s cap H. destruct (fits cap 0 s) eqn:E; [|reflexivity]. exfalso.
  apply fits_long_gen in E. rewrite Exists_exists in H. destruct H as (l & Hl & H).
  destruct (lines s) as [|l0 ls]; [destruct Hl|]. destruct E as [E1 E2]. rewrite Forall_forall in E2.
  destruct Hl as [<-|Hl]; [lia|]. apply E2 in Hl. lia.
Qed.

(** Blank lines say nothing. *)
Lemma sections_blank : forall p ls, (forall l, of_type 109 l = true -> p l = true) ->
  Forall2 (fun a b => fst a = fst b /\ snd b = filter p (snd a)) (sections ls) (sections (filter p ls)).
Proof.
  intros p ls Hp. induction ls as [|l ls IH]; cbn [sections filter]; [constructor|].
  destruct (of_type 109 l) eqn:E.
  - rewrite (Hp _ E). cbn [sections]. rewrite E. constructor; [|assumption]. split; [reflexivity|]. cbn [snd].
    clear -Hp. induction ls as [|l ls IH]; cbn [before filter]; [reflexivity|].
    destruct (of_type 109 l) eqn:E; [rewrite (Hp _ E); cbn [before]; now rewrite E|].
    cbn [filter]. destruct (p l); cbn [before]; rewrite ?E; now rewrite IH.
  - destruct (p l); [|assumption]. cbn [sections]. now rewrite E.
Qed.

Section Flat.
  Variable ovf : bool.
  Variables lossy lc : bytes -> bytes.

  (** The loop that handles the next line and the number of open loops are determined by the lines so far. *)
  Definition step (l : loop) (d : sdp) (line : bytes) : result (loop * sdp * N) :=
    match first_char line with
    | None => ROk (l, d, 0)
    | Some c =>
        if c =? 118 then
          match version_line ovf lossy line with
          | ROk v => ROk (l, {| sd_version := v; sd_media := sd_media d |}, 0)
          | RErr => RErr
          | RPanic => RPanic
          end
        else if c =? 116 then ROk (LpTime, d, 1)
        else if c =? 109 then
          match media_line ovf lossy lc line with
          | ROk m => ROk (LpMedia, {| sd_version := sd_version d; sd_media := sd_media d ++ [m] |}, 1)
          | RErr => RErr
          | RPanic => RPanic
          end
        else if c =? 97 then
          match l with
          | LpMedia =>
              match attribute_line lossy line with
              | RErr => RErr
              | RPanic => RPanic
              | ROk a => match add_attribute a (sd_media d) with
                         | None => RPanic
                         | Some ms => ROk (l, {| sd_version := sd_version d; sd_media := ms |}, 0)
                         end
              end
          | _ => ROk (l, d, 0)
          end
        else ROk (l, d, 0)
    end.
  Fixpoint flat (l : loop) (d : sdp) (ls : list bytes) : result (sdp * N) :=
    match ls with
    | [] => ROk (d, 0)
    | line :: r =>
        match step l d line with
        | ROk (l', d', n) => match flat l' d' r with
                             | ROk (d2, n2) => ROk (d2, n + n2)
                             | RErr => RErr
                             | RPanic => RPanic
                             end
        | RErr => RErr
        | RPanic => RPanic
        end
    end.

  Definition lift (r : result (sdp * N)) : result (sdp * bytes * N) :=
    match r with ROk (d, n) => ROk (d, [], n) | RErr => RErr | RPanic => RPanic end.

  Lemma run_nil : forall f cap l d, run ovf lossy lc (S f) cap l [] d = ROk (d, [], 0).
  Proof. reflexivity. Qed.

  Lemma run_flat : forall f cap l s d, (length s < f)%nat -> fits cap 0 s = true ->
    run ovf lossy lc f cap l s d = lift (flat l d (lines s)).
  Proof.
    induction f as [|f IH]; intros cap l s d Hf Hs; [lia|].
    cbn [run]. pose proof (next_cases cap s) as N. destruct (next_line cap s) as [line rest| |].
    - destruct N as (N1 & N2 & N3). rewrite N1. cbn [flat]. rewrite N3 in Hs. unfold step.
      assert (IH' : forall l d, run ovf lossy lc f cap l rest d = lift (flat l d (lines rest))) by (intros; apply IH; [lia|assumption]).
      assert (Hz : forall f1 l d, (0 < f1)%nat -> run ovf lossy lc f1 cap l [] d = ROk (d, [], 0)).
      { intros [|f1] l1 d1 H; [lia|reflexivity]. }
      assert (IHn : forall l d, match lift (flat l d (lines rest)) with ROk (d2, r2, n2) => r2 = [] | _ => True end).
      { intros l1 d1. destruct (flat l1 d1 (lines rest)) as [[? ?]| |]; cbn; trivial. }
      assert (Hnest : forall l1 d1,
        match run ovf lossy lc f cap l1 rest d1 with
        | ROk (d1, rest1, n1) =>
            match run ovf lossy lc f cap l rest1 d1 with
            | ROk (d2, rest2, n2) => ROk (d2, rest2, N.max (1 + n1) n2)
            | e => e
            end
        | e => e
        end = lift match flat l1 d1 (lines rest) with
                   | ROk (d2, n2) => ROk (d2, 1 + n2)
                   | RErr => RErr
                   | RPanic => RPanic
                   end).
      { intros l1 d1. rewrite IH'. destruct (flat l1 d1 (lines rest)) as [[d2 n2]| |]; cbn [lift]; try reflexivity.
        rewrite Hz by lia. do 2 f_equal. lia. }
      assert (H0 : forall l d, run ovf lossy lc f cap l rest d = lift match flat l d (lines rest) with
                   | ROk (d2, n2) => ROk (d2, 0 + n2)
                   | RErr => RErr
                   | RPanic => RPanic
                   end).
      { intros l1 d1. rewrite IH'. destruct (flat l1 d1 (lines rest)) as [[? ?]| |]; reflexivity. }
      destruct (first_char line) as [c|]; [|apply H0].
      assert (Hp : (if c =? 118 then
              match version_line ovf lossy line with
              | ROk v => run ovf lossy lc f cap l rest {| sd_version := v; sd_media := sd_media d |}
              | RErr => RErr
              | RPanic => RPanic
              end
              else if c =? 116 then
                match run ovf lossy lc f cap LpTime rest d with
                | ROk (d1, rest1, n1) =>
                    match run ovf lossy lc f cap l rest1 d1 with
                    | ROk (d2, rest2, n2) => ROk (d2, rest2, N.max (1 + n1) n2)
                    | e => e
                    end
                | e => e
                end
              else if c =? 109 then
                match media_line ovf lossy lc line with
                | ROk m =>
                  match run ovf lossy lc f cap LpMedia rest {| sd_version := sd_version d; sd_media := sd_media d ++ [m] |} with
                  | ROk (d1, rest1, n1) =>
                      match run ovf lossy lc f cap l rest1 d1 with
                      | ROk (d2, rest2, n2) => ROk (d2, rest2, N.max (1 + n1) n2)
                      | e => e
                      end
                  | e => e
                  end
                | RErr => RErr
                | RPanic => RPanic
                end
              else run ovf lossy lc f cap l rest d)
         = lift match (if c =? 118 then
          match version_line ovf lossy line with
          | ROk v => ROk (l, {| sd_version := v; sd_media := sd_media d |}, 0)
          | RErr => RErr
          | RPanic => RPanic
          end
        else if c =? 116 then ROk (LpTime, d, 1)
        else if c =? 109 then
          match media_line ovf lossy lc line with
          | ROk m => ROk (LpMedia, {| sd_version := sd_version d; sd_media := sd_media d ++ [m] |}, 1)
          | RErr => RErr
          | RPanic => RPanic
          end
        else ROk (l, d, 0)) with
              | ROk (l', d', n) => match flat l' d' (lines rest) with
                             | ROk (d2, n2) => ROk (d2, n + n2)
                             | RErr => RErr
                             | RPanic => RPanic
                             end
              | RErr => RErr
              | RPanic => RPanic
              end).
      { destruct (c =? 118). { destruct (version_line ovf lossy line); [apply H0|reflexivity|reflexivity]. }
        destruct (c =? 116). { apply Hnest. }
        destruct (c =? 109). { destruct (media_line ovf lossy lc line); [apply Hnest|reflexivity|reflexivity]. }
        apply H0. }
      destruct l.
      + rewrite Hp. destruct (c =? 118), (c =? 116), (c =? 109), (c =? 97); reflexivity.
      + destruct (N.eqb_spec c 114) as [->|_]; [apply H0|].
        rewrite Hp. destruct (c =? 118), (c =? 116), (c =? 109), (c =? 97); reflexivity.
      + destruct ((c =? 105) || (c =? 99) || (c =? 98) || (c =? 107)) eqn:Ei.
        { replace (c =? 118) with false by lia. replace (c =? 116) with false by lia.
          replace (c =? 109) with false by lia. replace (c =? 97) with false by lia. apply H0. }
        destruct (N.eqb_spec c 97) as [->|_].
        { change (97 =? 118) with false. change (97 =? 116) with false. change (97 =? 109) with false. cbn iota.
          destruct (attribute_line lossy line); try reflexivity.
          destruct (add_attribute a (sd_media d)); [apply H0|reflexivity]. }
        rewrite Hp. destruct (c =? 118), (c =? 116), (c =? 109); reflexivity.
    - destruct N as (-> & _). reflexivity.
    - congruence.
  Qed.

  (** A line over the limit is never accepted. *)
  Lemma run_unfit : forall f cap l s d, fits cap 0 s = false ->
    forall x, run ovf lossy lc f cap l s d <> ROk x.
  Proof.
    induction f as [|f IH]; intros cap l s d Hs x; [discriminate|].
    cbn [run]. pose proof (next_cases cap s) as N. destruct (next_line cap s) as [line rest| |].
    2: { destruct N as (_ & _ & N). congruence. }
    2: discriminate.
    destruct N as (_ & _ & N3). rewrite N3 in Hs.
    assert (Hr : forall l d x, run ovf lossy lc f cap l rest d <> ROk x) by (intros; now apply IH).
    assert (Hn : forall l1 d1 y,
        match run ovf lossy lc f cap l1 rest d1 with
        | ROk (d1, rest1, n1) =>
            match run ovf lossy lc f cap l rest1 d1 with
            | ROk (d2, rest2, n2) => ROk (d2, rest2, N.max (1 + n1) n2)
            | e => e
            end
        | e => e
        end <> ROk y).
    { intros l1 d1 y. destruct (run ovf lossy lc f cap l1 rest d1) as [[[? ?] ?]| |] eqn:E; try discriminate.
      now apply Hr in E. }
    repeat match goal with
           | |- run _ _ _ _ _ _ _ _ <> _ => apply Hr
           | |- RErr <> _ => discriminate
           | |- RPanic <> _ => discriminate
           | |- context [match run _ _ _ _ _ _ _ _ with _ => _ end] => apply Hn
           | |- context [if ?c then _ else _] => destruct c
           | |- context [match ?x with _ => _ end] => destruct x
           end.
  Qed.

  (** ** What the pass computes *)

  Lemma add_attribute_snoc : forall a l m, add_attribute a (l ++ [m]) = Some (l ++ [with_attrs m (md_attrs m ++ [a])]).
  Proof.
    intros a l m. induction l as [|x l IH]; [reflexivity|].
    cbn [app add_attribute]. rewrite IH. destruct l; reflexivity.
  Qed.

  (** Lines up to the next media section, in the loop of a media section *)
  Definition body_of (l : loop) (ls : list bytes) : list bytes :=
    match l with LpMedia => until_time (before (of_type 109) ls) | _ => [] end.
  Definition attr_ok (l : bytes) (a : attribute) : Prop := attribute_line lossy l = ROk a.
  Definition version_ok (l : bytes) (v : Z) : Prop := version_line ovf lossy l = ROk v.

  Lemma last_snoc_default : forall (vs : list Z) v, last vs v = last (v :: vs) 0%Z.
  Proof. intros vs v. destruct vs; [reflexivity|]. cbn [last]. revert z. induction vs; intros; [reflexivity|]. cbn [last] in *. apply IHvs. Qed.

  Definition outcome (l : loop) (d : sdp) (ls : list bytes) (d' : sdp) : Prop :=
    (exists vs, Forall2 version_ok (filter (of_type 118) ls) vs /\ sd_version d' = last vs (sd_version d))
    /\ exists new ats,
         Forall2 (fun s x => section_says ovf lossy lc (fst s) (until_time (snd s)) x) (sections ls) new
         /\ Forall2 attr_ok (filter (of_type 97) (body_of l ls)) ats
         /\ sd_media d' = match l with
                          | LpMedia => match rev (sd_media d) with
                                       | m :: t => rev t ++ [with_attrs m (md_attrs m ++ ats)]
                                       | [] => []
                                       end
                          | _ => sd_media d
                          end ++ new.

  Definition depth_of (ls : list bytes) : N := nlen (filter (fun l => of_type 109 l || of_type 116 l) ls).

  Lemma type_excl : forall l a b, of_type a l = true -> a <> b -> of_type b l = false.
  Proof. intros l a b. rewrite ?of_type_first. destruct (first_char l); [|discriminate]. intros. lia. Qed.

  Lemma with_attrs_same : forall m, with_attrs m (md_attrs m) = m.
  Proof. now intros []. Qed.

  Lemma flat_sound : forall ls l d d' n, (l = LpMedia -> sd_media d <> []) ->
    flat l d ls = ROk (d', n) -> outcome l d ls d' /\ n = depth_of ls.
  Proof.
    induction ls as [|x ls IH]; intros l d d' n Hl H; cbn [flat] in H.
    - inversion H; subst. split; [|reflexivity]. split; [exists []; split; [constructor|reflexivity]|].
      exists [], []. split; [constructor|]. split; [destruct l; constructor|].
      rewrite app_nil_r. destruct l; try reflexivity. destruct (rev (sd_media d')) as [|m t] eqn:E.
      + destruct (Hl eq_refl). rewrite <- (rev_involutive (sd_media d')), E. reflexivity.
      + rewrite app_nil_r, with_attrs_same, <- (rev_involutive (sd_media d')), E. reflexivity.
    - unfold step in H. unfold outcome, depth_of, body_of, until_time in *.
      destruct (first_char x) as [c|] eqn:Ec.
      + assert (T : forall k, of_type k x = (c =? k)) by (intros; rewrite ?of_type_first; now rewrite Ec).
        cbn [filter sections]. rewrite !T.
        destruct (N.eqb_spec c 118) as [->|N1].
        { change (118 =? 109) with false. change (118 =? 116) with false. cbn iota. cbn [orb]; cbn iota.
          destruct (version_line ovf lossy x) as [v| |] eqn:Ev; try discriminate.
          destruct (flat l _ ls) as [[d2 n2]| |] eqn:E; try discriminate. inversion H; subst.
          apply IH in E; [|assumption]. destruct E as (((vs & V1 & V2) & new & ats & S1 & S2 & S3) & ->).
          split; [|lia]. split.
          - exists (v :: vs). split; [now constructor|]. rewrite V2. cbn [sd_version]. rewrite last_snoc_default.
            destruct vs; [reflexivity|]. cbn [last]. clear. revert z. induction vs; intros; [reflexivity|]. apply IHvs.
          - exists new, ats. split; [assumption|]. split; [|assumption].
            destruct l; try assumption. cbn [before]. rewrite !T.
            change (118 =? 109) with false. cbn iota. cbn [before]. rewrite !T. change (118 =? 116) with false. cbn iota.
            cbn [filter]. rewrite !T. exact S2. }
        destruct (N.eqb_spec c 116) as [->|N2].
        { change (116 =? 109) with false. cbn iota. cbn [orb]; cbn iota.
          destruct (flat LpTime _ ls) as [[d2 n2]| |] eqn:E; try discriminate. inversion H; subst.
          apply IH in E; [|discriminate]. destruct E as ((V & new & ats & S1 & S2 & S3) & ->).
          split; [|unfold nlen; cbn [length]; rewrite Nat2N.inj_succ, <- N.add_1_l; reflexivity]. split; [assumption|].
          exists new, []. split; [assumption|]. split.
          - destruct l; try constructor. cbn [before]. rewrite !T.
            change (116 =? 109) with false. cbn iota. cbn [before]. rewrite !T. constructor.
          - rewrite S3. f_equal. destruct l; try reflexivity. destruct (rev (sd_media d)) as [|m t] eqn:E.
            + destruct (Hl eq_refl). rewrite <- (rev_involutive (sd_media d)), E. reflexivity.
            + rewrite app_nil_r, with_attrs_same, <- (rev_involutive (sd_media d)), E. reflexivity. }
        destruct (N.eqb_spec c 109) as [->|N3].
        { cbn [orb]; cbn iota. destruct (media_line ovf lossy lc x) as [m| |] eqn:Em; try discriminate.
          destruct (flat LpMedia _ ls) as [[d2 n2]| |] eqn:E; try discriminate. inversion H; subst.
          apply IH in E; [|cbn [sd_media]; now destruct (sd_media d)]. destruct E as ((V & new & ats & S1 & S2 & S3) & ->).
          split; [|unfold nlen; cbn [length]; rewrite Nat2N.inj_succ, <- N.add_1_l; reflexivity]. split; [assumption|].
          cbn [sd_media] in S3. rewrite rev_app_distr in S3. cbn [rev app] in S3. rewrite rev_involutive in S3.
          exists (with_attrs m (md_attrs m ++ ats) :: new), []. split; [|split].
          - constructor; [|assumption]. exists m, ats. split; [assumption|]. split; [exact S2|].
            f_equal. assert (md_attrs m = []) as ->; [|reflexivity].
            clear -Em. unfold media_line in Em. destruct (after_letter lossy 109 x); [|discriminate].
            unfold media_parse in Em. destruct (read_word (trim _)) as [? ?].
            destruct (read_decimal ovf _) as [[? ?]| |]; try discriminate.
            match type of Em with context [match ?X with ROk _ => _ | _ => _ end] => destruct X as [[? ?]| |]; try discriminate end.
            destruct (read_word _). inversion Em. reflexivity.
          - destruct l; try constructor. cbn [before]. rewrite !T. constructor.
          - rewrite S3, <- app_assoc. cbn [app]. destruct l; try reflexivity.
            rewrite app_nil_r || idtac. destruct (rev (sd_media d)) as [|m1 t] eqn:E.
            + destruct (Hl eq_refl). rewrite <- (rev_involutive (sd_media d)), E. reflexivity.
            + rewrite app_nil_r, with_attrs_same, <- (rev_involutive (sd_media d)), E. reflexivity. }
        cbn [orb]; cbn iota. destruct (N.eqb_spec c 97) as [->|N4].
        { destruct l.
          1, 2: destruct (flat _ d ls) as [[d2 n2]| |] eqn:E; try discriminate; inversion H; subst;
            apply IH in E; [|assumption]; exact E.
          destruct (attribute_line lossy x) as [a| |] eqn:Ea; try discriminate.
          destruct (rev (sd_media d)) as [|m t] eqn:Er.
          { destruct (Hl eq_refl). rewrite <- (rev_involutive (sd_media d)), Er. reflexivity. }
          assert (Ed : sd_media d = rev t ++ [m]) by (rewrite <- (rev_involutive (sd_media d)), Er; reflexivity).
          rewrite Ed, add_attribute_snoc in H.
          destruct (flat _ _ ls) as [[d2 n2]| |] eqn:E; try discriminate. inversion H; subst.
          apply IH in E; [|intros _; cbn [sd_media]; now destruct (rev t)].
          destruct E as ((V & new & ats & S1 & S2 & S3) & ->).
          split; [|lia]. split; [assumption|]. exists new, (a :: ats). split; [assumption|]. split.
          - cbn [before]. rewrite !T. change (97 =? 109) with false. cbn iota. cbn [before]. rewrite !T. change (97 =? 116) with false. cbn iota.
            cbn [filter]. rewrite !T. change (97 =? 97) with true. cbn iota. now constructor.
          - cbn [sd_media] in S3. rewrite rev_app_distr in S3. cbn [rev app] in S3. rewrite rev_involutive in S3.
            rewrite S3. f_equal. f_equal. unfold with_attrs; cbn [md_type md_port md_nb md_protocol md_formats md_attrs].
            now rewrite <- app_assoc. }
        destruct (flat l d ls) as [[d2 n2]| |] eqn:E; try discriminate. inversion H; subst.
        apply IH in E; [|assumption]. destruct E as ((V & new & ats & S1 & S2 & S3) & ->). split; [|lia]. split; [assumption|].
        exists new, ats. split; [assumption|]. split; [|assumption].
        destruct l; try assumption. cbn [before]. rewrite !T. replace (c =? 109) with false by lia. cbn [before].
        rewrite !T. replace (c =? 116) with false by lia. cbn [filter]. rewrite !T. replace (c =? 97) with false by lia. exact S2.
      + assert (T : forall k, of_type k x = false) by (intros; rewrite ?of_type_first; now rewrite Ec).
        cbn [filter sections]. rewrite !T. cbn [orb]; cbn iota.
        destruct (flat l d ls) as [[d2 n2]| |] eqn:E; try discriminate. inversion H; subst.
        apply IH in E; [|assumption]. destruct E as ((V & new & ats & S1 & S2 & S3) & ->). split; [|lia]. split; [assumption|].
        exists new, ats. split; [assumption|]. split; [|assumption].
        destruct l; try assumption. cbn [before]. rewrite !T. cbn [before].
        rewrite !T. cbn [filter]. rewrite !T. exact S2.
  Qed.

  Lemma Forall2_inv_cons : forall A B (R : A -> B -> Prop) x l l', Forall2 R (x :: l) l' -> exists y t, l' = y :: t /\ R x y /\ Forall2 R l t.
  Proof. intros A B R x l l' H. inversion H; subst. eauto. Qed.

  (** Whenever the lines say something, the pass succeeds. *)
  Lemma flat_complete : forall ls l d vs new ats, (l = LpMedia -> sd_media d <> []) ->
    Forall2 version_ok (filter (of_type 118) ls) vs ->
    Forall2 (fun s x => section_says ovf lossy lc (fst s) (until_time (snd s)) x) (sections ls) new ->
    Forall2 attr_ok (filter (of_type 97) (body_of l ls)) ats ->
    exists d' n, flat l d ls = ROk (d', n).
  Proof.
    induction ls as [|x ls IH]; intros l d vs new ats Hl HV HS HA; cbn [flat]; [eauto|].
    assert (K : forall l' d' k vs' new' ats', step l d x = ROk (l', d', k) -> (l' = LpMedia -> sd_media d' <> []) ->
      Forall2 version_ok (filter (of_type 118) ls) vs' ->
      Forall2 (fun s x => section_says ovf lossy lc (fst s) (until_time (snd s)) x) (sections ls) new' ->
      Forall2 attr_ok (filter (of_type 97) (body_of l' ls)) ats' ->
      exists d'' n, match step l d x with
        | ROk (l', d', n) => match flat l' d' ls with
                             | ROk (d2, n2) => ROk (d2, n + n2)
                             | RErr => RErr
                             | RPanic => RPanic
                             end
        | RErr => RErr
        | RPanic => RPanic
        end = ROk (d'', n)).
    { intros l' d' k vs' new' ats' -> Hl' H1 H2 H3. destruct (IH l' d' _ _ _ Hl' H1 H2 H3) as (d2 & n2 & ->). eauto. }
    unfold body_of, until_time in *. cbn [filter sections before] in *.
    destruct (first_char x) as [c|] eqn:Ec.
    - assert (T : forall k, of_type k x = (c =? k)) by (intros; rewrite ?of_type_first; now rewrite Ec).
      rewrite !T in HV, HS. unfold step in K |- *. rewrite Ec in K |- *.
      destruct (N.eqb_spec c 118) as [Hc|N1]; [subst c|].
      { change (118 =? 109) with false in HS. cbn iota in HS. apply Forall2_inv_cons in HV. destruct HV as (v & vs' & -> & Hv & HV).
        red in Hv. rewrite Hv in K |- *. eapply K; [reflexivity|exact Hl|eassumption|eassumption|].
        destruct l; try eassumption. rewrite T in HA. change (118 =? 109) with false in HA. cbn iota in HA. cbn [before] in HA. rewrite T in HA.
        change (118 =? 116) with false in HA. cbn iota in HA. cbn [filter] in HA. rewrite T in HA. exact HA. }
      destruct (N.eqb_spec c 116) as [Hc|N2]; [subst c|].
      { eapply K; [reflexivity|discriminate|eassumption|exact HS|constructor]. }
      destruct (N.eqb_spec c 109) as [Hc|N3]; [subst c|].
      { apply Forall2_inv_cons in HS. destruct HS as (y & new' & -> & (m0 & at0 & Y1 & Y2 & Y3) & HS).
        cbn [fst snd] in *. rewrite Y1 in K |- *. eapply K; [reflexivity| |eassumption|eassumption|exact Y2].
        intros _. cbn [sd_media]. now destruct (sd_media d). }
      destruct (N.eqb_spec c 97) as [Hc|N4]; [subst c|].
      { destruct l.
        1, 2: eapply K; [reflexivity|exact Hl|eassumption|eassumption|exact HA].
        rewrite T in HA. change (97 =? 109) with false in HA. cbn iota in HA. cbn [before] in HA. rewrite T in HA.
        change (97 =? 116) with false in HA. cbn iota in HA. cbn [filter] in HA. rewrite T in HA.
        apply Forall2_inv_cons in HA. destruct HA as (a & ats' & -> & Ha & HA). red in Ha. rewrite Ha in K |- *.
        destruct (rev (sd_media d)) as [|m t] eqn:Er.
        { destruct (Hl eq_refl). rewrite <- (rev_involutive (sd_media d)), Er. reflexivity. }
        assert (Ed : sd_media d = rev t ++ [m]) by (rewrite <- (rev_involutive (sd_media d)), Er; reflexivity).
        rewrite Ed, add_attribute_snoc in K |- *.
        eapply K; [reflexivity| |eassumption|eassumption|exact HA]. intros _. cbn [sd_media]. now destruct (rev t). }
      eapply K; [reflexivity|exact Hl|eassumption|eassumption|].
      destruct l; try eassumption. rewrite T in HA. replace (c =? 109) with false in HA by lia. cbn [before] in HA. rewrite T in HA.
      replace (c =? 116) with false in HA by lia. cbn [filter] in HA. rewrite T in HA. replace (c =? 97) with false in HA by lia. exact HA.
    - assert (T : forall k, of_type k x = false) by (intros; rewrite ?of_type_first; now rewrite Ec).
      rewrite !T in HV, HS. unfold step in K |- *. rewrite Ec in K |- *.
      eapply K; [reflexivity|exact Hl|eassumption|eassumption|].
      destruct l; try eassumption. rewrite T in HA. cbn [before] in HA. rewrite T in HA. cbn [filter] in HA. rewrite T in HA. exact HA.
  Qed.

  (** ** The parser *)
  Lemma parse_fits : forall s, fits LINE_LIMIT 0 s = true ->
    sdp_run ovf lossy lc s = lift (flat LpTop sdp_new (lines s)).
  Proof. intros s H. unfold sdp_run. apply run_flat; [lia|assumption]. Qed.

  Lemma parse_says : forall s d,
    sdp_parse ovf lossy lc s = ROk d <-> fits LINE_LIMIT 0 s = true /\ says until_time ovf lossy lc (lines s) d.
  Proof.
    intros s d. split.
    - intros H. destruct (fits LINE_LIMIT 0 s) eqn:F.
      + split; [reflexivity|]. unfold sdp_parse in H. rewrite (parse_fits _ F) in H.
        destruct (flat LpTop sdp_new (lines s)) as [[d1 n1]| |] eqn:E; cbn [lift] in H; try discriminate.
        inversion H; subst. apply flat_sound in E; [|discriminate].
        destruct E as ((V & new & ats & S1 & S2 & S3) & _). split; [exact V|].
        cbn [sd_media sdp_new app] in S3. rewrite S3. exact S1.
      + exfalso. unfold sdp_parse, sdp_run in H. pose proof (run_unfit (S (length s)) _ LpTop s sdp_new F) as U.
        destruct (run _ _ _ _ _ _ _ _) as [[[? ?] ?]| |]; try discriminate. eapply U; reflexivity.
    - intros (F & (vs & V1 & V2) & S). unfold sdp_parse. rewrite (parse_fits _ F).
      destruct (flat_complete (lines s) LpTop sdp_new vs (sd_media d) []) as (d' & n & E); try eassumption; try discriminate; try constructor.
      rewrite E. cbn [lift]. apply flat_sound in E; [|discriminate].
      destruct E as (((vs' & V1' & V2') & new & ats & S1 & S2 & S3) & _).
      f_equal. destruct d as [v ms], d' as [v' ms']. cbn [sd_version sd_media] in *. cbn [sdp_new sd_media sd_version app] in *.
      subst. f_equal.
      + f_equal. clear -V1 V1'. revert vs' V1'. induction V1; intros vs' V'; inversion V'; subst; [reflexivity|].
        f_equal; [|now apply IHV1]. unfold version_ok in *. congruence.
      + clear -S S1. revert new S1. induction S as [|? ? ? ? HS ? IH]; intros new' S'; inversion S' as [|? ? ? ? HS' ?]; subst; [reflexivity|].
        f_equal; [|now apply IH]. destruct HS as (m & a & M & A & ->), HS' as (m' & a' & M' & A' & ->).
        assert (m' = m) by congruence. subst. f_equal.
        clear -A A'. revert a' A'. induction A; intros a' A'; inversion A'; subst; [reflexivity|]. f_equal; [congruence|now apply IHA].
  Qed.

  Lemma parse_rest : forall s d r n, sdp_run ovf lossy lc s = ROk (d, r, n) -> r = [] /\ n = depth_of (lines s).
  Proof.
    intros s d r n H. destruct (fits LINE_LIMIT 0 s) eqn:F.
    - rewrite (parse_fits _ F) in H. destruct (flat LpTop sdp_new (lines s)) as [[d1 n1]| |] eqn:E; cbn [lift] in H; try discriminate.
      inversion H; subst. apply flat_sound in E; [|discriminate]. now destruct E.
    - exfalso. eapply run_unfit; eassumption.
  Qed.
End Flat.
