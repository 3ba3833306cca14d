(** The texts that are kept while a response is read. *)
From Coq Require Import NArith List.
From Verif.Model Require Import Bytes Http.
Import ListNotations.
Local Open Scope N_scope.

Definition header_texts (h : rheader) : list bytes :=
  [rh_protocol h; rh_version h; rh_line h] ++
  List.concat (map (fun f => [hf_name f; match hf_value f with Some v => v | None => [] end]) (f_list (rh_fields h))).
Definition kept_texts (s : codec) : list bytes :=
  [hd_buf (cc_hdec s); hd_field (cc_hdec s)] ++
  match hd_header (cc_hdec s) with Some h => header_texts h | None => [] end ++
  match cc_header s with Some h => header_texts h | None => [] end ++
  match cc_bdec s with Some (DChunked d) => [cd_buf d] | _ => [] end.
(** Their length altogether *)
Definition total (l : list bytes) : N := N.of_nat (List.length (List.concat l)).
