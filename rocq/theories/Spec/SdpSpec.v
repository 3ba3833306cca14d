(** Vocabulary of the session description properties: RFC 4566 seen as lines. *)
From Coq Require Import String NArith ZArith List Bool.
From Verif.Model Require Import Bytes Text Http Sdp.
From Verif.Spec Require Import HttpSpec.
Import ListNotations.
Local Open Scope N_scope.

Definition line_end (b : N) : bool := (b =? 13) || (b =? 10).

(** The lines of a text: CR and LF both end a line; a line without an end at the end of the text counts when it is
    not empty. *)
Fixpoint lines (s : bytes) : list bytes :=
  match s with
  | [] => []
  | b :: r => if line_end b then [] :: lines r
              else match lines r with
                   | [] => [[b]]
                   | l :: ls => (b :: l) :: ls
                   end
  end.

(** Every ended line is shorter than the limit, and a last line without an end is no longer than the limit. *)
Fixpoint fits (cap n : N) (s : bytes) : bool :=
  match s with
  | [] => n <=? cap
  | b :: r => if line_end b then (n <? cap) && fits cap 0 r else (n <? cap) && fits cap (n + 1) r
  end.

(** White space among the characters of one byte: TAB to CR, space, NEL and no-break space. *)
Definition visible_char (b : N) : bool := negb (existsb (N.eqb b) [9; 10; 11; 12; 13; 32; 133; 160]).
(** The type of a line: its first character that is not white space. *)
Definition of_type (c : N) (line : bytes) : bool :=
  match filter visible_char line with x :: _ => x =? c | [] => false end.
(** Lines that are not only white space. *)
Definition some_text (l : bytes) : bool := existsb visible_char l.

(** The part of a list before the first element with a property. *)
Fixpoint before {A} (p : A -> bool) (l : list A) : list A :=
  match l with
  | [] => []
  | x :: l' => if p x then [] else x :: before p l'
  end.

(** Media sections: every `m=` line with the lines up to the next one. *)
Fixpoint sections (ls : list bytes) : list (bytes * list bytes) :=
  match ls with
  | [] => []
  | l :: r => if of_type 109 l then (l, before (of_type 109) r) :: sections r else sections r
  end.

Definition with_attrs (m : media) (l : list attribute) : media :=
  {| md_type := md_type m; md_port := md_port m; md_nb := md_nb m; md_protocol := md_protocol m;
     md_formats := md_formats m; md_attrs := l |}.

(** What the lines of a section say, where [body] are the lines that count. *)
Definition section_says (ovf : bool) (lossy lc : bytes -> bytes) (mline : bytes) (body : list bytes) (x : media) : Prop :=
  exists m0 ats,
    media_line ovf lossy lc mline = ROk m0
    /\ Forall2 (fun l a => attribute_line lossy l = ROk a) (filter (of_type 97) body) ats
    /\ x = with_attrs m0 ats.

(** What the lines of a description say. [cut] gives the lines of a section that count. *)
Definition says (cut : list bytes -> list bytes) (ovf : bool) (lossy lc : bytes -> bytes) (ls : list bytes) (d : sdp) : Prop :=
  (exists vs, Forall2 (fun l v => version_line ovf lossy l = ROk v) (filter (of_type 118) ls) vs
              /\ sd_version d = last vs 0%Z)
  /\ Forall2 (fun s x => section_says ovf lossy lc (fst s) (cut (snd s)) x) (sections ls) (sd_media d).

Definition whole (l : list bytes) : list bytes := l.
Definition until_time : list bytes -> list bytes := before (of_type 116).

(** White space between the parts of a line: spaces and tabs. *)
Definition blank (s : bytes) : Prop := Forall (fun b => b = 32 \/ b = 9) s.
(** Printable ASCII without the space. *)
Definition word (s : bytes) : Prop := Forall (fun b => 33 <= b <= 126) s /\ s <> [].

(** The kinds of media of RFC 4566, and the encodings of video that are supported. *)
Definition media_names : list (string * mtype) :=
  [("audio", MAudio); ("video", MVideo); ("text", MText); ("application", MApplication); ("message", MMessage)]%string.
Definition supported_codecs : list bytes :=
  [lit "H264"; lit "H264-RCDO"; lit "H264-SVC"; lit "MP4V-ES"; lit "MPEG4-GENERIC"]%string.
Definition picture_types : list bytes :=
  [lit "multipart/x-mixed-replace"; lit "image/jpeg"; lit "image/jpg"]%string.
(** The value of the last `Content-Type` field, the empty string without one. *)
Definition content_type (lc : bytes -> bytes) (fs : list hfield) : bytes :=
  match rev (filter (same_name lc (lit "content-type"%string)) fs) with
  | f :: _ => match hf_value f with Some v => v | None => [] end
  | [] => []
  end.
