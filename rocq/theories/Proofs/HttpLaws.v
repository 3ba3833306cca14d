(** Decoders of HTTP-like messages do not depend on chunking and panic only on allocation. *)
From Coq Require Import NArith List Bool Lia.
From Coq Require Import ZArith ZifyBool ZifyNat ZifyN.
From Verif.Model Require Import Bytes Utf8 Text Http.
From Verif.Spec Require Import HttpSpec.
From Verif.Proofs Require Import TextProofs HttpLines.
Import ListNotations.
Local Open Scope N_scope.

Lemma line_shorter max buf data l s r : buf_ok max buf -> line_decode crlf max buf data = Item l s r -> (length r < length data)%nat /\ s = [].
Proof.
  intros I H. rewrite (line_decode_cut _ _ _ I) in H. destruct (cut_line max (buf ++ data)) as [l' r'| |] eqn:E; try discriminate.
  injection H as -> <- ->. split; [|reflexivity]. destruct (cut_rest _ _ _ _ E) as [E1 _]. destruct I as [I1 _].
  unfold cut_line in E. destruct (first_line (buf ++ data)) as [[l2 r2]|] eqn:E2; [|destruct (_ <? _); discriminate].
  pose proof (first_line_late _ _ _ _ I1 E2) as Y. destruct ((_ <=? _) && _); [|discriminate]. injection E as -> ->.
  assert (Z : length (buf ++ data) = length (l ++ [13; 10] ++ r)) by now rewrite E1. rewrite !app_length in Z. cbn in Z. lia.
Qed.
Lemma line_more max buf data s r : buf_ok max buf -> line_decode crlf max buf data = More s r -> r = [] /\ buf_ok max s /\ s = buf ++ data.
Proof.
  intros I H. rewrite (line_decode_cut _ _ _ I) in H. destruct (cut_line max (buf ++ data)) as [l' r'| |] eqn:E; try discriminate.
  injection H as <- <-. split; [reflexivity|]. split; [|reflexivity]. now apply cut_more_ok.
Qed.
Lemma line_no_crash max buf data : buf_ok max buf -> line_decode crlf max buf data <> Crash.
Proof. intros I. rewrite (line_decode_cut _ _ _ I). destruct (cut_line _ _); discriminate. Qed.

Section Headers.
Variable lc : bytes -> bytes.
Variables maxlen maxlines : N.
Hypothesis Hmax : 0 < maxlen.

(** ** Headers *)
Definition hinv (s : hdec) : Prop := buf_ok maxlen (hd_buf s).
Lemma hinv_new : hinv hdec_new.
Proof. now apply buf_nil. Qed.

Lemma header_fuel f1 : forall f2 s data, hinv s -> (length data < f1)%nat -> (length data < f2)%nat ->
  header_loop lc f1 maxlen maxlines s data = header_loop lc f2 maxlen maxlines s data.
Proof.
  induction f1 as [|f1 IH]; intros f2 s data I H1 H2; [lia|]. destruct f2 as [|f2]; [lia|]. cbn [header_loop].
  destruct (line_decode crlf maxlen (hd_buf s) data) as [line b r| | |] eqn:E; try reflexivity.
  destruct (line_shorter _ _ _ _ _ _ I E) as [L ->]. destruct (maxlines <? hd_lines s + 1); [reflexivity|].
  destruct (hd_header s) as [h|].
  - destruct line; [reflexivity|]. apply IH; [apply buf_nil, Hmax|lia|lia].
  - destruct (status_parse line); [|reflexivity]. apply IH; [apply buf_nil, Hmax|lia|lia].
Qed.
Lemma header_law : chunk_law hinv (header_decode lc maxlen maxlines).
Proof.
  intros s x y I. unfold header_decode. remember (S (length x)) as fx eqn:Ef. assert (Hf : (length x < fx)%nat) by lia. clear Ef.
  revert s x I Hf. induction fx as [|fx IH]; intros s x I Hf; [lia|]. cbn [header_loop].
  pose proof (line_law maxlen (hd_buf s) x y I) as L.
  destruct (line_decode crlf maxlen (hd_buf s) x) as [line b r|b r| |] eqn:E.
  - rewrite L. destruct (line_shorter _ _ _ _ _ _ I E) as [Ls ->]. destruct (maxlines <? hd_lines s + 1); [reflexivity|].
    assert (K : forall s', hinv s' -> match header_loop lc fx maxlen maxlines s' r with
      | Item a s'' r0 => header_loop lc (length (x ++ y)) maxlen maxlines s' (r ++ y) = Item a s'' (r0 ++ y)
      | More s'' r0 => r0 = [] /\ hinv s'' /\ header_loop lc (length (x ++ y)) maxlen maxlines s' (r ++ y) = header_loop lc (S (length y)) maxlen maxlines s'' y
      | Fail => header_loop lc (length (x ++ y)) maxlen maxlines s' (r ++ y) = Fail
      | Crash => header_loop lc (length (x ++ y)) maxlen maxlines s' (r ++ y) = Crash end).
    { intros s' I'. pose proof (IH s' r I' ltac:(lia)) as X.
      rewrite (header_fuel (length (x ++ y)) (S (length (r ++ y)))); [exact X|exact I'| |lia]. rewrite !app_length. lia. }
    destruct (hd_header s) as [h|].
    + destruct line; [reflexivity|]. apply K, buf_nil, Hmax.
    + destruct (status_parse line); [|reflexivity]. apply K, buf_nil, Hmax.
  - destruct L as (-> & Ib & L). split; [reflexivity|]. split; [exact Ib|]. rewrite L. cbn [hd_buf hd_header hd_field hd_lines].
    destruct (line_decode crlf maxlen b y) as [line b' r| | |] eqn:E2; try reflexivity.
    destruct (line_shorter _ _ _ _ _ _ Ib E2) as [Ls ->]. destruct (maxlines <? hd_lines s + 1); [reflexivity|].
    destruct (hd_header s) as [h|].
    + destruct line; [reflexivity|]. apply header_fuel; [apply buf_nil, Hmax| |lia]. rewrite app_length. lia.
    + destruct (status_parse line); [|reflexivity]. apply header_fuel; [apply buf_nil, Hmax| |lia]. rewrite app_length. lia.
  - now rewrite L.
  - now rewrite L.
Qed.
Lemma header_no_crash s data : hinv s -> header_decode lc maxlen maxlines s data <> Crash.
Proof.
  unfold header_decode. remember (S (length data)) as f eqn:Ef. assert (Hf : (length data < f)%nat) by lia. clear Ef.
  revert s data Hf. induction f as [|f IH]; intros s data Hf I; [lia|]. cbn [header_loop].
  destruct (line_decode crlf maxlen (hd_buf s) data) as [line b r|b r| |] eqn:E; try discriminate.
  - destruct (line_shorter _ _ _ _ _ _ I E) as [Ls ->]. destruct (maxlines <? hd_lines s + 1); [discriminate|].
    destruct (hd_header s) as [h|].
    + destruct line; [discriminate|]. apply IH; [lia|apply buf_nil, Hmax].
    + destruct (status_parse line); [|discriminate]. apply IH; [lia|apply buf_nil, Hmax].
  - exfalso. exact (line_no_crash _ _ _ I E).
Qed.
Lemma header_item s data h s' r : hinv s -> header_decode lc maxlen maxlines s data = Item h s' r -> s' = hdec_new.
Proof.
  unfold header_decode. remember (S (length data)) as f eqn:Ef. clear Ef. revert s data. induction f as [|f IH]; intros s data I; [discriminate|].
  cbn [header_loop]. destruct (line_decode crlf maxlen (hd_buf s) data) as [line b r'|b r'| |] eqn:E; try discriminate.
  destruct (line_shorter _ _ _ _ _ _ I E) as [Ls ->]. destruct (maxlines <? hd_lines s + 1); [discriminate|].
  destruct (hd_header s).
  - destruct line; [intros [= _ <- _]; reflexivity|]. apply IH, buf_nil, Hmax.
  - destruct (status_parse line); [|discriminate]. apply IH, buf_nil, Hmax.
Qed.

End Headers.

(** ** Bodies *)
Lemma simple_law ignore : chunk_law (fun _ => True) (simple_decode ignore).
Proof.
  intros s x y _. cbn [simple_decode]. split; [reflexivity|]. split; [exact I|]. unfold simple_decode.
  destruct ignore; [reflexivity|]. now rewrite app_assoc.
Qed.

Definition finv (s : fdec) : Prop := fd_body s <> None.
Lemma skipn_short {A} (l m : list A) n : (n <= length l)%nat -> skipn n (l ++ m) = skipn n l ++ m.
Proof. intros H. rewrite skipn_app. replace (n - length l)%nat with O by lia. reflexivity. Qed.
Lemma firstn_short {A} (l m : list A) n : (n <= length l)%nat -> firstn n (l ++ m) = firstn n l.
Proof. intros H. rewrite firstn_app. replace (n - length l)%nat with O by lia. cbn. apply app_nil_r. Qed.
Lemma firstn_long {A} (l m : list A) n : (length l <= n)%nat -> firstn n (l ++ m) = l ++ firstn (n - length l) m.
Proof. intros H. rewrite firstn_app. now rewrite firstn_all2. Qed.
Lemma skipn_long {A} (l m : list A) n : (length l <= n)%nat -> skipn n (l ++ m) = skipn (n - length l) m.
Proof. intros H. rewrite skipn_app. now rewrite skipn_all2. Qed.

Lemma skipn_nlen {A} (x : list A) : skipn (N.to_nat (nlen x)) x = [].
Proof. unfold nlen. now rewrite Nat2N.id, skipn_all. Qed.
Lemma firstn_nlen {A} (x : list A) : firstn (N.to_nat (nlen x)) x = x.
Proof. unfold nlen. now rewrite Nat2N.id, firstn_all. Qed.

Lemma fixed_law ignore : chunk_law finv (fixed_decode ignore).
Proof.
  intros [[b|] e] x y I; [|now destruct I]. clear I. unfold fixed_decode. cbn [fd_body fd_expected].
  destruct (N.leb_spec e (nlen x)) as [L|L].
  - assert (T : (if e <? nlen x then e else nlen x) = e) by (destruct (N.ltb_spec e (nlen x)); lia). rewrite T.
    assert (L2 : e <= nlen (x ++ y)) by (unfold nlen in *; rewrite app_length; lia).
    assert (T2 : (if e <? nlen (x ++ y) then e else nlen (x ++ y)) = e) by (destruct (N.ltb_spec e (nlen (x ++ y))); lia). rewrite T2.
    rewrite N.sub_diag. cbn [N.ltb N.compare]. rewrite skipn_short, firstn_short by (unfold nlen in *; lia). reflexivity.
  - assert (T : (if e <? nlen x then e else nlen x) = nlen x) by (destruct (N.ltb_spec e (nlen x)); lia). rewrite T.
    destruct (N.ltb_spec 0 (e - nlen x)) as [_|]; [|lia]. rewrite skipn_nlen, firstn_nlen.
    split; [reflexivity|]. split; [discriminate|]. cbn [fd_body fd_expected].
    set (t1 := if e <? nlen (x ++ y) then e else nlen (x ++ y)). set (t2 := if e - nlen x <? nlen y then e - nlen x else nlen y).
    assert (T12 : t1 = nlen x + t2).
    { unfold t1, t2, nlen in *. rewrite app_length. destruct (N.ltb_spec e (N.of_nat (length x + length y))), (N.ltb_spec (e - N.of_nat (length x)) (N.of_nat (length y))); lia. }
    clearbody t1 t2. subst t1. replace (e - (nlen x + t2)) with (e - nlen x - t2) by lia.
    rewrite skipn_long, firstn_long by (unfold nlen; lia). replace (N.to_nat (nlen x + t2) - length x)%nat with (N.to_nat t2) by (unfold nlen; lia).
    destruct ignore; [reflexivity|]. now rewrite app_assoc.
Qed.

(** ** Chunked coding *)
Section Chunked.
Variables bits maxlen : N.
Hypothesis Hmax : 0 < maxlen.
Definition cinv (s : cdec) : Prop := buf_ok maxlen (cd_buf s) /\ (cd_state s = CBody -> 0 < cd_expected s).

Lemma trailer_fuel f1 : forall f2 s data, buf_ok maxlen (cd_buf s) -> (length data < f1)%nat -> (length data < f2)%nat ->
  trailer_loop f1 maxlen s data = trailer_loop f2 maxlen s data.
Proof.
  induction f1 as [|f1 IH]; intros f2 s data I H1 H2; [lia|]. destruct f2 as [|f2]; [lia|]. cbn [trailer_loop].
  destruct (line_decode crlf maxlen (cd_buf s) data) as [line b r| | |] eqn:E; try reflexivity.
  destruct (line_shorter _ _ _ _ _ _ I E) as [L ->]. destruct line; [reflexivity|]. apply IH; [apply buf_nil, Hmax|lia|lia].
Qed.
Lemma trailer_state fuel : forall s data s' r, buf_ok maxlen (cd_buf s) -> trailer_loop fuel maxlen s data = More s' r ->
  r = [] /\ buf_ok maxlen (cd_buf s') /\ cd_state s' = cd_state s.
Proof.
  induction fuel as [|f IH]; intros s data s' r I; cbn [trailer_loop]; [discriminate|].
  destruct (line_decode crlf maxlen (cd_buf s) data) as [line b r'|b r'| |] eqn:E; try discriminate.
  - destruct (line_shorter _ _ _ _ _ _ I E) as [L ->]. destruct line; [discriminate|]. intros H. apply IH in H; [exact H|apply buf_nil, Hmax].
  - intros [= <- <-]. destruct (line_more _ _ _ _ _ I E) as (-> & B & _). auto.
Qed.
Lemma trailer_law s x y : buf_ok maxlen (cd_buf s) ->
  match trailer_loop (S (length x)) maxlen s x with
  | Item a s' r => trailer_loop (S (length (x ++ y))) maxlen s (x ++ y) = Item a s' (r ++ y)
  | More s' r => r = [] /\ buf_ok maxlen (cd_buf s') /\ trailer_loop (S (length (x ++ y))) maxlen s (x ++ y) = trailer_loop (S (length y)) maxlen s' y
  | Fail => trailer_loop (S (length (x ++ y))) maxlen s (x ++ y) = Fail
  | Crash => False
  end.
Proof.
  intros I. remember (S (length x)) as fx eqn:Ef. assert (Hf : (length x < fx)%nat) by lia. clear Ef.
  revert s x I Hf. induction fx as [|fx IH]; intros s x I Hf; [lia|]. cbn [trailer_loop].
  pose proof (line_law maxlen (cd_buf s) x y I) as L.
  destruct (line_decode crlf maxlen (cd_buf s) x) as [line b r|b r| |] eqn:E.
  - rewrite L. destruct (line_shorter _ _ _ _ _ _ I E) as [Ls ->]. destruct line as [|c line]; [reflexivity|].
    match goal with |- context [trailer_loop fx maxlen ?s' r] => pose proof (IH s' r (buf_nil _ Hmax) ltac:(lia)) as X;
      rewrite (trailer_fuel (length (x ++ y)) (S (length (r ++ y))) s' (r ++ y) (buf_nil _ Hmax)) by (rewrite !app_length; lia); exact X end.
  - destruct L as (-> & Ib & L). split; [reflexivity|]. split; [exact Ib|]. rewrite L. cbn [cd_buf cd_state cd_body cd_expected].
    destruct (line_decode crlf maxlen b y) as [line b' r| | |] eqn:E2; try reflexivity.
    destruct (line_shorter _ _ _ _ _ _ Ib E2) as [Ls ->]. destruct line; [reflexivity|].
    apply trailer_fuel; [apply buf_nil, Hmax| |lia]. rewrite app_length. lia.
  - now rewrite L.
  - exact (line_no_crash _ _ _ I E).
Qed.

(** One step on [x] and on [x ++ y]. *)
Lemma chunked_step_law ignore s x y : cinv s -> x <> [] ->
  match chunked_step bits maxlen ignore s x with
  | Item a s' r => chunked_step bits maxlen ignore s (x ++ y) = Item a s' (r ++ y)
  | More s' r => cinv s' /\ (length r < length x)%nat /\
      (chunked_step bits maxlen ignore s (x ++ y) = More s' (r ++ y) \/
       (r = [] /\ chunked_step bits maxlen ignore s (x ++ y) = chunked_step bits maxlen ignore s' y))
  | Fail => chunked_step bits maxlen ignore s (x ++ y) = Fail
  | Crash => False
  end.
Proof.
  intros [I1 I2] Hx. assert (Lx : (0 < length x)%nat) by (destruct x; [congruence|cbn; lia]).
  unfold chunked_step. destruct (cd_state s) eqn:Es.
  - pose proof (line_law maxlen (cd_buf s) x y I1) as L. destruct (line_decode crlf maxlen (cd_buf s) x) as [line b r|b r| |] eqn:E.
    + rewrite L. destruct (line_shorter _ _ _ _ _ _ I1 E) as [Ls ->]. destruct (parse_uint _ _ _) as [n|]; [|reflexivity].
      split; [split; [apply buf_nil, Hmax|cbn; destruct (N.ltb_spec 0 n); [auto|discriminate]]|]. split; [exact Ls|now left].
    + destruct L as (-> & Ib & L). split; [split; [exact Ib|discriminate]|]. split; [exact Lx|]. right. split; [reflexivity|]. rewrite L. reflexivity.
    + now rewrite L.
    + exact (line_no_crash _ _ _ I1 E).
  - specialize (I2 eq_refl). set (e := cd_expected s) in *. destruct (N.leb_spec e (nlen x)) as [L|L].
    + assert (T : (if e <? nlen x then e else nlen x) = e) by (destruct (N.ltb_spec e (nlen x)); lia). rewrite T.
      assert (L2 : e <= nlen (x ++ y)) by (unfold nlen in *; rewrite app_length; lia).
      assert (T2 : (if e <? nlen (x ++ y) then e else nlen (x ++ y)) = e) by (destruct (N.ltb_spec e (nlen (x ++ y))); lia). rewrite T2.
      rewrite N.sub_diag. cbn [N.eqb]. rewrite skipn_short, firstn_short by (unfold nlen in *; lia).
      split; [split; [exact I1|discriminate]|]. split; [rewrite skipn_length; unfold nlen in *; lia|]. now left.
    + assert (T : (if e <? nlen x then e else nlen x) = nlen x) by (destruct (N.ltb_spec e (nlen x)); lia). rewrite T.
      destruct (N.eqb_spec (e - nlen x) 0) as [|_]; [lia|]. split; [split; [exact I1|cbn; lia]|].
      rewrite !skipn_nlen, !firstn_nlen. split; [cbn; lia|]. right. split; [reflexivity|].
      cbn [cd_state cd_expected cd_buf cd_body].
      set (t1 := if e <? nlen (x ++ y) then e else nlen (x ++ y)). set (t2 := if e - nlen x <? nlen y then e - nlen x else nlen y).
      assert (T12 : t1 = nlen x + t2).
      { unfold t1, t2, nlen in *. rewrite app_length. destruct (N.ltb_spec e (N.of_nat (length x + length y))), (N.ltb_spec (e - N.of_nat (length x)) (N.of_nat (length y))); lia. }
      clearbody t1 t2. subst t1. replace (e - (nlen x + t2)) with (e - nlen x - t2) by lia.
      rewrite skipn_long, firstn_long by (unfold nlen; lia). replace (N.to_nat (nlen x + t2) - length x)%nat with (N.to_nat t2) by (unfold nlen; lia).
      destruct ignore; [reflexivity|]. now rewrite app_assoc.
  - pose proof (line_law maxlen (cd_buf s) x y I1) as L. destruct (line_decode crlf maxlen (cd_buf s) x) as [line b r|b r| |] eqn:E.
    + rewrite L. destruct (line_shorter _ _ _ _ _ _ I1 E) as [Ls ->].
      split; [split; [apply buf_nil, Hmax|discriminate]|]. split; [exact Ls|now left].
    + destruct L as (-> & Ib & L). split; [split; [exact Ib|discriminate]|]. split; [exact Lx|]. right. split; [reflexivity|]. rewrite L. reflexivity.
    + now rewrite L.
    + exact (line_no_crash _ _ _ I1 E).
  - pose proof (trailer_law s x y I1) as L. destruct (trailer_loop (S (length x)) maxlen s x) as [a s' r|s' r| |] eqn:E; try exact L.
    destruct L as (-> & B & L). destruct (trailer_state _ _ _ _ _ I1 E) as (_ & _ & S'). rewrite Es in S'.
    split; [split; [exact B|congruence]|]. split; [exact Lx|]. right. split; [reflexivity|]. rewrite S'. exact L.
  - reflexivity.
Qed.

Lemma chunked_fuel f1 : forall f2 ignore s data, cinv s -> (length data <= f1)%nat -> (length data <= f2)%nat ->
  chunked_loop bits f1 maxlen ignore s data = chunked_loop bits f2 maxlen ignore s data.
Proof.
  induction f1 as [|f1 IH]; intros f2 ignore s data I H1 H2.
  - destruct data; [|cbn in H1; lia]. destruct f2; reflexivity.
  - destruct data as [|b data]; [destruct f2; reflexivity|]. destruct f2 as [|f2]; [cbn in H2; lia|]. cbn [chunked_loop].
    pose proof (chunked_step_law ignore s (b :: data) [] I ltac:(discriminate)) as L.
    destruct (chunked_step bits maxlen ignore s (b :: data)) as [a s' r|s' r| |]; try reflexivity.
    destruct L as (I' & L & _). cbn in *. apply IH; [exact I'|lia|lia].
Qed.
Lemma chunked_nil f ignore s : chunked_loop bits f maxlen ignore s [] = More s [].
Proof. destruct f; reflexivity. Qed.
Lemma chunked_law ignore : chunk_law cinv (chunked_decode bits maxlen ignore).
Proof.
  intros s x y I. unfold chunked_decode.
  rewrite (chunked_fuel (S (length x)) (length x)) by (exact I || lia). rewrite (chunked_fuel (S (length (x ++ y))) (length (x ++ y))) by (exact I || lia).
  remember (length x) as fx eqn:Ef. assert (Hf : (length x <= fx)%nat) by lia. clear Ef.
  revert s x I Hf. induction fx as [|fx IH]; intros s x I Hf.
  - destruct x; [|cbn in Hf; lia]. rewrite chunked_nil. cbn [app]. split; [reflexivity|]. split; [exact I|]. apply chunked_fuel; [exact I|lia|lia].
  - destruct x as [|b x0] eqn:Exx; [rewrite chunked_nil; cbn [app]; split; [reflexivity|]; split; [exact I|]; apply chunked_fuel; [exact I|lia|lia]|].
    rewrite <- Exx in *. assert (Hx : x <> []) by (rewrite Exx; discriminate). assert (Hxx : x ++ y <> []) by (rewrite Exx; discriminate).
    assert (U : forall f z, z <> [] -> chunked_loop bits (S f) maxlen ignore s z = match chunked_step bits maxlen ignore s z with More s' rest => chunked_loop bits f maxlen ignore s' rest | o => o end).
    { intros f z Hz. destruct z; [congruence|reflexivity]. }
    rewrite U by exact Hx. rewrite (chunked_fuel (length (x ++ y)) (S (length (x ++ y)))) by (exact I || lia). rewrite U by exact Hxx.
    pose proof (chunked_step_law ignore s x y I Hx) as L.
    destruct (chunked_step bits maxlen ignore s x) as [a s' r|s' r| |] eqn:Ex.
    + now rewrite L.
    + destruct L as (I' & Lr & L). pose proof (IH s' r I' ltac:(lia)) as X. destruct L as [L|[-> L]].
      * rewrite L. rewrite (chunked_fuel (length (x ++ y)) (length (r ++ y))) by (exact I' || rewrite ?app_length; lia). exact X.
      * rewrite L. rewrite chunked_nil.
        split; [reflexivity|]. split; [exact I'|]. destruct y as [|c y].
        -- rewrite app_nil_r in L. rewrite <- L, Ex. now rewrite !chunked_nil.
        -- cbn [chunked_loop]. destruct (chunked_step bits maxlen ignore s' (c :: y)) as [a s2 r2|s2 r2| |] eqn:E2; try reflexivity.
           pose proof (chunked_step_law ignore s' (c :: y) [] I' ltac:(discriminate)) as Q. rewrite E2 in Q. destruct Q as (I2 & L2 & _).
           cbn in L2. apply chunked_fuel; [exact I2|rewrite app_length; cbn; lia|cbn [length]; lia].
    + now rewrite L.
    + destruct L.
Qed.
End Chunked.
