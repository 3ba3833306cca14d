(** Properties C98 to C101: JSON documents of the client, the extended information, the identity file, and what depends
    on the identity of the client. *)
From Coq Require Import String NArith ZArith List Bool.
From Verif.Model Require Import Bytes Frame Service Control TableJson Config JsonText Client.
From Verif.Spec Require Import ControlSpec ClientSpec ConfigSpec JsonSpec SecrecySpec.
From Verif.Proofs Require Import JsonPf SecrecyPf JsonCases.
Import ListNotations.
Local Open Scope N_scope.
Local Open Scope list_scope.
Definition txt (s : string) : bytes := lit s.
Arguments txt s%string.

(** C98: a reader of JSON text gets every document back, and nothing from an unfinished one. *)
Theorem C98_read_back : forall j : json, jread (jdump j) = Some j.
Proof. exact dump_jread. Qed.
Print Assumptions C98_read_back.

Theorem C98_unfinished : forall (j : json) (a x : bytes), jdump j = a ++ x -> x <> [] -> no_number j = true -> jread a = None.
Proof. exact torn_text. Qed.
Print Assumptions C98_unfinished.

(** A number may be read from its first digits. *)
Theorem C98_numbers : exists j a x z, jdump j = a ++ x /\ x <> [] /\ jread a = Some z /\ z <> j.
Proof. exact number_prefix. Qed.
Print Assumptions C98_numbers.

Example C98_case :
  jdump (JObj [(txt "a", JArr [JNull; JBool true; JNum (-12); JStr [34; 0; 10; 200]]); (txt "b", JObj [])])
  = [123;34;97;34;58;91] ++ txt "null,true,-12," ++ [34;92;34] ++ txt "\u0000\n" ++ [200;34;93;44;34;98;34;58;123;125;125]
  /\ no_number (JObj [(txt "b", JObj [])]) = true.
Proof. split; reflexivity. Qed.

(** C99: the extended information has no NUL and no other control character, whatever the device strings are, so it ends
    where the server expects it; the server gets the strings back from the REGISTER message, and
    the name, the version and the vendor of the client. *)
Theorem C99_no_control :
  forall (ver : bytes) (category type vendor : option bytes), Forall (fun c => 32 <= c) (jdump (extended_info ver category type vendor)).
Proof. intros. apply dump_visible. Qed.
Print Assumptions C99_no_control.

Theorem C99_recovered :
  forall (id : N) (uuid key : bytes) (mac window : N) (gateway : bool) (svcs : list (N * service))
         (ver : bytes) (category type vendor : option bytes) (m : cmsg),
    id < 2 ^ 16 -> List.length uuid = 16%nat -> List.length key = 16%nat -> mac < 2 ^ 48 ->
    NoDup (map fst svcs) -> Forall wf_entry svcs -> Forall (fun e => nul_free_path (snd e)) svcs ->
    mk_register id uuid key mac window gateway (table_of_services svcs) (jdump (extended_info ver category type vendor)) = ROk m ->
    exists g, read_register (cmsg_encode m) = Some (id, g) /\
      exists o, jread (g_info g) = Some (JObj o) /\
        exists d, field_of (txt "device") o = Some (JObj d) /\
          field_of (txt "category") d = Some (opt_str category) /\
          field_of (txt "type") d = Some (opt_str type) /\
          field_of (txt "vendor") d = Some (opt_str vendor) /\
        exists c, field_of (txt "client") o = Some (JObj c) /\ field_of (txt "id") c = Some (JStr (txt "arrow-client")) /\
          field_of (txt "version") c = Some (JStr ver) /\ field_of (txt "vendor") c = Some (JStr (txt "angelcam")).
Proof. exact info_recovered. Qed.
Print Assumptions C99_recovered.

Example C99_case :
  jread (jdump (extended_info (txt "1.0") None (Some [0; 10; 34]) (Some (txt "x")))) =
  Some (extended_info (txt "1.0") None (Some [0; 10; 34]) (Some (txt "x"))).
Proof. vm_compute. reflexivity. Qed.

(** C100: the identity file holds the UUID and nothing else. *)
Theorem C100_content :
  forall (uprint : N -> bytes) (u : N),
    jread (jdump (identity_doc uprint u)) = Some (JObj [(txt "uuid", JStr (uprint u))]).
Proof. intros. apply dump_jread. Qed.
Print Assumptions C100_content.

(** C101: the password, the UUID, the MAC address and the extended information are in the REGISTER message only. Two
    clients that differ in nothing else behave alike on the same events, but for that message. *)
Theorem C101_noninterference :
  forall (t : Z) (i i' : identity) (v1 v2 : view) (es : list kev),
    id_gateway i = id_gateway i' ->
    exists (id : N) (r r' : cmsg) (k k' : conn) (o o' : list cobs),
      mk_register id (id_uuid i) (id_key i) (id_mac i) SESSION_WINDOW_SIZE (id_gateway i) (table_of_services (v_visible v1)) (id_info i) = ROk r /\
      mk_register id (id_uuid i') (id_key i') (id_mac i') SESSION_WINDOW_SIZE (id_gateway i') (table_of_services (v_visible v1)) (id_info i') = ROk r' /\
      connection t i v1 v2 es = (k, o) /\ connection t i' v1 v2 es = (k', o') /\
      k_result k = k_result k' /\ same_context r r' (k_ctx k) (k_ctx k') /\ Forall2 (same_effect r r') o o'.
Proof. exact connection_secrecy. Qed.
Print Assumptions C101_noninterference.

Example C101_case :
  let i := {| id_uuid := repeat 1 16; id_key := repeat 2 16; id_mac := 3; id_info := []; id_gateway := true |} in
  let i' := {| id_uuid := repeat 1 16; id_key := repeat 9 16; id_mac := 3; id_info := []; id_gateway := true |} in
  let v := {| v_visible := []; v_version := 0; v_get := fun _ => None |} in
  id_gateway i = id_gateway i' /\ existsb (fun x => match x with XSent _ => true | _ => false end) (snd (connection 0 i v v [KPoll []])) = true.
Proof. vm_compute. auto. Qed.
