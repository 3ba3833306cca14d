(** C41-C42: the command line. *)
From Coq Require Import NArith List Bool String.
From Verif.Model Require Import Bytes Service Text Utf8 Url TableJson CmdLine.
From Verif.Spec Require Import UrlSpec CmdSpec.
From Verif.Proofs Require Import CmdProofs CmdCases.
Import ListNotations.
Local Open Scope N_scope.
Local Open Scope list_scope.

(** A command line that consists of options as they are documented is accepted, and every setting of
    the running client is what the options say. The flash-friendly mode is missing. *)
Theorem C41_options_partial : forall feature get_mac resolve resolve_host app addr rest os first r,
  Forall (fun x => utf8_valid x = true) rest -> line feature get_mac resolve resolve_host rest os ->
  exists c, parse_line feature get_mac resolve resolve_host (app :: addr :: rest) = POk c /\
    (build first c = ROk r -> obeys first (service_address addr) os r).
Proof. exact line_accepted. Qed.
Print Assumptions C41_options_partial.

(** Every other command line is refused, unless it asks for the help or version text. *)
Theorem C41_refused : forall feature get_mac resolve resolve_host app addr rest,
  Forall (fun x => utf8_valid x = true) rest -> (forall os, ~ line feature get_mac resolve resolve_host rest os) ->
  parse_line feature get_mac resolve resolve_host (app :: addr :: rest) = PErr \/
  (parse_line feature get_mac resolve resolve_host (app :: addr :: rest) = PExit /\
   asks_exit feature get_mac resolve resolve_host rest).
Proof. exact line_refused. Qed.
Print Assumptions C41_refused.

(** The option --flash-friendly has no effect: the client runs with the flash-friendly mode off. *)
Theorem C41_flash_refuted : forall feature get_mac resolve resolve_host app addr m,
  exists os c r, line feature get_mac resolve resolve_host [lit "--flash-friendly"] os /\
    parse_line feature get_mac resolve resolve_host [app; addr; lit "--flash-friendly"] = POk c /\
    build (Some m) c = ROk r /\ ~ flash_obeyed os r.
Proof. exact flash_ignored. Qed.
Print Assumptions C41_flash_refuted.

Example C41_case : forall resolve, exists os,
  line true (fun _ => None) resolve (fun _ p => Some {| sa_ip := V4 (2 ^ 24); sa_port := p |})
    [lit "-r"; lit "rtsp://u@1.0.0.0/x?y"; lit "--log-file-size=20"; lit "--device-type= a b "] os /\
  List.length os = 3%nat.
Proof. exact options_case. Qed.

(** The address given to the connector. *)
Theorem C42_default_port : forall feature get_mac resolve resolve_host app addr rest first c r,
  parse_line feature get_mac resolve resolve_host (app :: addr :: rest) = POk c -> build first c = ROk r ->
  expected_address addr (r_addr r).
Proof. exact address_expected. Qed.
Print Assumptions C42_default_port.

Example C42_case : host_form (lit "[::1]") /\ host_form (lit "arr.example") /\ digits (lit "80") /\
  service_address (lit "[::1]") = lit "[::1]:8900" /\ service_address (lit "[::1]:80") = lit "[::1]:80".
Proof. exact address_case. Qed.
