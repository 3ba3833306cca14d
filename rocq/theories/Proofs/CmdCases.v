(** The flash-friendly option, and concrete command lines. *)
From Coq Require Import NArith List Bool Lia String.
From Coq Require Import ZArith ZifyBool ZifyNat ZifyN.
From Verif.Model Require Import Bytes Service Text Utf8 Url TableJson CmdLine.
From Verif.Spec Require Import UrlSpec CmdSpec.
From Verif.Proofs Require Import BytesFacts TextProofs UrlProofs CmdProofs.
Import ListNotations.
Local Open Scope N_scope.
Local Open Scope list_scope.

Lemma flash_ignored feature get_mac resolve resolve_host app addr m :
  exists os c r, line feature get_mac resolve resolve_host [lit "--flash-friendly"] os /\
    parse_line feature get_mac resolve resolve_host [app; addr; lit "--flash-friendly"] = POk c /\
    build (Some m) c = ROk r /\ ~ flash_obeyed os r.
Proof.
  exists [OFlash]. eexists. eexists. split; [exact (l_cons _ _ _ _ _ _ _ _ (w_flash _ _ _ _) (l_nil _ _ _ _))|].
  split; [reflexivity|]. split; [reflexivity|]. unfold flash_obeyed. discriminate.
Qed.

Lemma parse_args_addr feature get_mac resolve resolve_host args : forall c c',
  parse_args feature get_mac resolve resolve_host c args = POk c' -> cp_addr c' = cp_addr c.
Proof.
  remember (List.length args) as n eqn:En. revert args En. induction n as [n IH] using lt_wf_ind. intros args -> c c' H.
  assert (Hs : forall n a (f : bytes -> cparser) c1, (forall v, cp_addr (f v) = cp_addr c) -> from n a (fun v => POk (f v)) = POk c1 -> cp_addr c1 = cp_addr c).
  { intros n a f c1 Hf E. unfold from in E. destruct (slice a n (List.length a)); cbn in E; try discriminate. injection E as <-. apply Hf. }
  destruct args as [|x rest]; cbn [parse_args] in H; [injection H as <-; reflexivity|].
  destruct (takes_value x).
  - destruct rest as [|v rest]; [discriminate|].
    destruct (apply_value feature get_mac resolve resolve_host x v c) as [c1| | |] eqn:Ea; try discriminate.
    rewrite (IH (List.length rest) ltac:(cbn; lia) rest eq_refl c1 c' H). clear H.
    unfold apply_value, add_service in Ea.
    repeat match goal with H : context [if beq ?a ?b then _ else _] |- _ => destruct (beq a b); [|] end;
    repeat match goal with
    | H : context [if feature then _ else _] |- _ => destruct feature
    | H : pbind (of_result ?r) _ = _ |- _ => destruct r; cbn [of_result pbind] in H
    end; try discriminate; injection Ea as <-; reflexivity.
  - destruct (apply_single feature x c) as [c1| | |] eqn:Ea; try discriminate.
    rewrite (IH (List.length rest) ltac:(cbn; lia) rest eq_refl c1 c' H). clear H.
    unfold apply_single in Ea.
    repeat match goal with
    | H : context [if beq ?a ?b then _ else _] |- _ => destruct (beq a b); [try (destruct feature; try discriminate); try discriminate; injection Ea as <-; reflexivity|]
    | H : context [if starts_with ?a ?b then _ else _] |- _ =>
        destruct (starts_with a b);
        [try (destruct feature; [|discriminate]); unfold from in Ea; destruct (slice b _ (List.length b)) as [v| |]; cbn [of_result pbind] in Ea; try discriminate;
         try (destruct (parse_uint 10 (2 ^ 64 - 1) v); cbn [of_result opt_result pbind] in Ea; try discriminate);
         injection Ea as <-; reflexivity|]
    end; discriminate.
Qed.

Lemma address_expected feature get_mac resolve resolve_host app addr rest first c r :
  parse_line feature get_mac resolve resolve_host (app :: addr :: rest) = POk c -> build first c = ROk r ->
  expected_address addr (r_addr r).
Proof.
  unfold parse_line. cbn [tl]. intros H Hb. apply parse_args_addr in H. cbn [cp_addr set_addr] in H.
  unfold build in Hb. destruct (match cp_mac c with Some m => Some m | None => first end); [|discriminate].
  injection Hb as <-. cbn [r_addr]. rewrite H. apply service_address_expected.
Qed.

Lemma options_case : forall resolve, exists os,
  line true (fun _ => None) resolve (fun _ p => Some {| sa_ip := V4 (2 ^ 24); sa_port := p |})
    [lit "-r"; lit "rtsp://u@1.0.0.0/x?y"; lit "--log-file-size=20"; lit "--device-type= a b "] os /\
  List.length os = 3%nat.
Proof.
  intros resolve.
  match goal with |- context [line ?f ?g ?r ?h ?l _] =>
    destruct (args_inv f g r h l) with (c := cparser_new) as [(os & Hl & Hp)|[(Hp & _)|(Hp & _)]] end.
  - repeat constructor.
  - exists os. split; [exact Hl|].
    assert (H : forall f g r h a os, line f g r h a os -> (List.length os <= List.length a)%nat).
    { clear. induction 1 as [|a o rest os Hw Hl IH]; [cbn; lia|]. rewrite app_length. destruct Hw; cbn [List.length]; lia. }
    inversion Hl as [|a1 o1 r1 os1 W1 L1 E1]; subst.
    destruct W1; cbn [app] in E1; try discriminate; injection E1 as Ea Er; try (apply (f_equal (nth 1)) in Ea; discriminate); subst.
    all: inversion L1 as [|a2 o2 r2 os2 W2 L2 E2]; subst; destruct W2; cbn [app] in E2; try discriminate; 
      injection E2 as Ea2 Er2; subst; try discriminate.
    all: inversion L2 as [|a3 o3 r3 os3 W3 L3 E3]; subst; destruct W3; cbn [app] in E3; try discriminate;
      injection E3 as Ea3 Er3; subst; try discriminate.
    all: inversion L3 as [|a4 o4 r4 os4 W4 L4 E4]; subst; [reflexivity|destruct W4; discriminate].
  - vm_compute in Hp. discriminate.
  - vm_compute in Hp. discriminate.
Qed.

Lemma address_case : host_form (lit "[::1]") /\ host_form (lit "arr.example") /\ digits (lit "80") /\
  service_address (lit "[::1]") = lit "[::1]:8900" /\ service_address (lit "[::1]:80") = lit "[::1]:80".
Proof.
  split; [right; exists (lit "::1"); reflexivity|]. split.
  - left. apply find_char_none. vm_compute. reflexivity.
  - split; [split; [discriminate|]|split; vm_compute; reflexivity].
    repeat constructor; vm_compute; congruence.
Qed.
