(** Memory used for a response: what the decoders of src/net/http/generic.rs keep between two reads. Lengths of the
    texts are counted, not the sizes of the structures around them. Every header field is stored with its lowercase
    name, in a list and in a map (generic.rs:69-108, 170-197): the texts are counted once, as the list has them. *)
From Coq Require Import NArith List Bool.
From Verif.Model Require Import Bytes Http.
Import ListNotations.
Local Open Scope N_scope.

(** generic.rs:69-75 *)
Definition field_size (f : hfield) : N := nlen (hf_name f) + match hf_value f with Some v => nlen v | None => 0 end.
Definition fields_size (l : list hfield) : N := fold_right (fun f n => field_size f + n) 0 l.
(** generic.rs:395-403 *)
Definition header_size (h : rheader) : N :=
  nlen (rh_protocol h) + nlen (rh_version h) + nlen (rh_line h) + fields_size (f_list (rh_fields h)).
Definition option_size (h : option rheader) : N := match h with Some h => header_size h | None => 0 end.

(** The buffer of a line, the header so far and the field so far (generic.rs:508-532, 595-625) *)
Definition hdec_size (s : hdec) : N := nlen (hd_buf s) + option_size (hd_header s) + nlen (hd_field s).

(** The buffer of the lines of a chunked body (generic.rs:812-830) *)
Definition bdec_buffer (d : bdec) : N := match d with DChunked d => nlen (cd_buf d) | _ => 0 end.
(** The room taken for a body. `FixedSizeBodyDecoder::new` takes it all at once, with `Vec::with_capacity`
    (generic.rs:741-756); the vectors of the other two decoders grow with the data (generic.rs:693-707, 812-830). *)
Definition bdec_room (ignore : bool) (d : bdec) : N :=
  match d with
  | DSimple b => nlen b
  | DFixed d => match fd_body d with
                | Some b => nlen b + if ignore then 0 else fd_expected d
                | None => 0
                end
  | DChunked d => nlen (cd_body d)
  end.

(** http/mod.rs:324-331, rtsp/mod.rs:320-326: all but the body, and the body *)
Definition codec_size (s : codec) : N :=
  hdec_size (cc_hdec s) + option_size (cc_header s) + match cc_bdec s with Some d => bdec_buffer d | None => 0 end.
Definition codec_room (ignore : bool) (s : codec) : N := match cc_bdec s with Some d => bdec_room ignore d | None => 0 end.
