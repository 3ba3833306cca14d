(** C51: URLs. *)
From Coq Require Import NArith List Bool String.
From Verif.Model Require Import Bytes Text Utf8 Url TableJson.
From Verif.Spec Require Import UrlSpec.
From Verif.Proofs Require Import UrlProofs SlicePf.
Import ListNotations.
Local Open Scope N_scope.

(** Every string is either the text of a URL, which is then split into its components, or refused. It
    never panics, and neither does any accessor. *)
Theorem C51_split : forall s, utf8_valid s = true ->
  (exists p u, url_ok p /\ s = assemble p /\ url_parse s = ROk u /\ accessors u p) \/
  (url_parse s = RErr /\ forall p, url_ok p -> s <> assemble p).
Proof. exact url_parse_total. Qed.
Print Assumptions C51_split.

(** Every text put together from components is accepted and gives back these components. *)
Theorem C51_components : forall p, utf8_valid (assemble p) = true -> url_ok p ->
  exists u, url_parse (assemble p) = ROk u /\ accessors u p.
Proof. exact url_parse_ok. Qed.
Print Assumptions C51_components.

Example C51_case :
  let s := lit "rtsp://a:b@c:d@[::1]:8554/x?y?z#w" in
  utf8_valid s = true /\
  exists u, url_parse s = ROk u /\ url_username u = ROk (Some (lit "a")) /\ url_password u = ROk (Some (lit "b@c:d")) /\
    url_host u = ROk (lit "[::1]") /\ u_port u = Some 8554 /\ url_path u = ROk (lit "/x?y") /\
    url_query u = ROk (Some (lit "z")) /\ url_fragment u = ROk (Some (lit "w")).
Proof. split; [vm_compute; reflexivity|]. eexists. split; [vm_compute; reflexivity|]. repeat split; vm_compute; reflexivity. Qed.

(** A piece of a text can be taken if it and what is left on both sides are texts; otherwise the program panics. *)
Theorem C51_slice : forall (s : bytes) (a b : nat), utf8_valid s = true ->
  (exists p x q, s = p ++ x ++ q /\ List.length p = a /\ List.length (p ++ x) = b /\
     utf8_valid p = true /\ utf8_valid x = true /\ utf8_valid q = true /\ slice s a b = ROk x) \/
  (slice s a b = RPanic /\
   forall p x q, s = p ++ x ++ q -> List.length p = a -> List.length (p ++ x) = b ->
     utf8_valid p = true -> utf8_valid x = true -> utf8_valid q = true -> False).
Proof. exact slices. Qed.
Print Assumptions C51_slice.

Example C51_slice_case : (* U+00FF *)
  utf8_valid [97; 195; 191; 98] = true /\ slice [97; 195; 191; 98] 1 3 = ROk [195; 191] /\ slice [97; 195; 191; 98] 1 2 = RPanic.
Proof. repeat split. Qed.
