(** Session descriptions: src/net/rtsp/sdp.rs, and the classification of streams in src/scanner/discovery.rs.

    Strings are the byte lists of their UTF-8 encodings. `String::from_utf8_lossy`, `str::to_lowercase` and
    `str::to_uppercase` are the arguments [lossy], [lc] and [uc]. [ovf] tells that the program is compiled with overflow
    checks: an overflow is a panic then, otherwise the value wraps. *)
From Coq Require Import String NArith ZArith List Bool.
From Verif.Model Require Import Bytes Utf8 Text Http.
Import ListNotations.
Local Open Scope N_scope.

(** sdp.rs:86-95 *)
Inductive mtype := MAudio | MVideo | MText | MApplication | MMessage | MOther (s : bytes).
(** sdp.rs:176-183 *)
Record attribute := { at_name : bytes; at_value : option bytes }.
(** sdp.rs:110-126 *)
Record media := {
  md_type : mtype;
  md_port : N;
  md_nb : option N;
  md_protocol : bytes;
  md_formats : list bytes;
  md_attrs : list attribute
}.
(** sdp.rs:62-78 *)
Record sdp := { sd_version : Z; sd_media : list media }.
Definition sdp_new : sdp := {| sd_version := 0%Z; sd_media := [] |}.

(** ** Lines *)

(** sdp.rs:288-387, `LineReader::append` and `LineIterator::next`: the bytes up to the next CR or LF; [n] bytes of
    the line are in the buffer. [None]: the line is too long. *)
Fixpoint take_line (cap n : N) (content : bytes) : option (bytes * bytes) :=
  match content with
  | [] => Some ([], [])
  | b :: r =>
      if cap <=? n then None
      else if (b =? 13) || (b =? 10) then Some ([], r)
      else match take_line cap (n + 1) r with
           | Some (l, r') => Some (b :: l, r')
           | None => None
           end
  end.
Inductive lnext := LLine (line rest : bytes) | LNone | LErr.
Definition next_line (cap : N) (content : bytes) : lnext :=
  match content with
  | [] => LNone
  | _ => match take_line cap 0 content with Some (l, r) => LLine l r | None => LErr end
  end.

(** sdp.rs:535-544: `u8 as char`, so a byte is a Latin-1 character. The first character that is not white
    space. *)
Definition latin_white (b : N) : bool := ((9 <=? b) && (b <=? 13)) || (b =? 32) || (b =? 133) || (b =? 160).
Fixpoint first_char (line : bytes) : option N :=
  match line with
  | [] => None
  | b :: r => if latin_white b then first_char r else Some b
  end.

(** sdp.rs:195-210: a name and, after the first colon, a value *)
Definition attribute_parse (s : bytes) : attribute :=
  match find_char 58 s with
  | Some i => {| at_name := trim (firstn i s); at_value := Some (trim (skipn (S i) s)) |}
  | None => {| at_name := trim s; at_value := None |}
  end.

Section Parser.
  Variable ovf : bool.
  Variables lossy lc uc : bytes -> bytes.

  (** src/utils/string/reader.rs:151-161, the loop of `read_decimal_u32`: value, number of digits and rest *)
  Fixpoint decimal_loop (s : bytes) (acc : N) (cnt : nat) : result (N * nat * bytes) :=
    match s with
    | [] => ROk (acc, cnt, [])
    | b :: r =>
        if (48 <=? b) && (b <=? 57)
        then let v := acc * 10 + (b - 48) in
             if ovf && (2 ^ 32 <=? v) then RPanic else decimal_loop r (v mod 2 ^ 32) (S cnt)
        else ROk (acc, cnt, s)
    end.
  (** reader.rs:143-168, `read_decimal_u32` *)
  Definition read_decimal (s : bytes) : result (N * bytes) :=
    match decimal_loop (skip_white s) 0 0 with
    | ROk (v, cnt, r) => if Nat.eqb cnt 0 then RErr else ROk (v, r)
    | RErr => RErr
    | RPanic => RPanic
    end.

  (** sdp.rs:97-108 *)
  Definition mtype_of (s : bytes) : mtype :=
    let l := lc s in
    if beq l (lit "audio"%string) then MAudio
    else if beq l (lit "video"%string) then MVideo
    else if beq l (lit "text"%string) then MText
    else if beq l (lit "application"%string) then MApplication
    else if beq l (lit "message"%string) then MMessage
    else MOther s.

  (** sdp.rs:155-161; the first argument bounds the number of words. *)
  Fixpoint words (fuel : nat) (s : bytes) : list bytes :=
    match s with
    | [] => []
    | _ => match fuel with
           | O => []
           | S f => let '(w, r) := read_word s in w :: words f r
           end
    end.

  (** sdp.rs:128-174 *)
  Definition media_parse (s : bytes) : result media :=
    let '(mt, r) := read_word (trim s) in
    match read_decimal r with
    | RErr => RErr
    | RPanic => RPanic
    | ROk (port, r) =>
        let r := skip_white r in
        match (match r with
               | [] => RErr
               | c :: r' => if c =? 47
                            then match read_decimal r' with
                                 | ROk (v, r2) => ROk (Some (v mod 2 ^ 16), r2)
                                 | RErr => RErr
                                 | RPanic => RPanic
                                 end
                            else ROk (None, r)
               end) with
        | RErr => RErr
        | RPanic => RPanic
        | ROk (nb, r) =>
            let '(protocol, r) := read_word r in
            ROk {| md_type := mtype_of mt; md_port := port mod 2 ^ 16; md_nb := nb; md_protocol := protocol;
                   md_formats := words (length r) r; md_attrs := [] |}
        end
    end.

  (** The beginning of sdp.rs:434-445, 476-487 and 510-521: the letter and the equals sign *)
  Definition after_letter (c : N) (line : bytes) : option bytes :=
    match match_char c (skip_white (lossy line)) with
    | None => None
    | Some r => match_char 61 (skip_white r)
    end.

  (** sdp.rs:432-454, the value; `as i32` *)
  Definition version_line (line : bytes) : result Z :=
    match after_letter 118 line with
    | None => RErr
    | Some r =>
        match read_decimal r with
        | ROk (v, _) => ROk (if v <? 2 ^ 31 then Z.of_N v else (Z.of_N v - 2 ^ 32)%Z)
        | RErr => RErr
        | RPanic => RPanic
        end
    end.
  (** sdp.rs:476-491 *)
  Definition media_line (line : bytes) : result media :=
    match after_letter 109 line with
    | None => RErr
    | Some r => media_parse (skip_white r)
    end.
  (** sdp.rs:510-525 *)
  Definition attribute_line (line : bytes) : result attribute :=
    match after_letter 97 line with
    | None => RErr
    | Some r => ROk (attribute_parse (skip_white r))
    end.

  (** sdp.rs:527-529: `last_mut().unwrap()` *)
  Fixpoint add_attribute (a : attribute) (l : list media) : option (list media) :=
    match l with
    | [] => None
    | [m] => Some [{| md_type := md_type m; md_port := md_port m; md_nb := md_nb m; md_protocol := md_protocol m;
                      md_formats := md_formats m; md_attrs := md_attrs m ++ [a] |}]
    | m :: l' => option_map (cons m) (add_attribute a l')
    end.

  (** Which loop is running: `process_lines`, `process_time_description` or `process_media_description`. *)
  Inductive loop := LpTop | LpTime | LpMedia.

  (** sdp.rs:409-506: the three loops with `process_line` between them. Result: the description, the content left
      and the number of loops nested in this one. The first argument bounds the number of calls. *)
  Fixpoint run (fuel : nat) (cap : N) (l : loop) (content : bytes) (d : sdp) : result (sdp * bytes * N) :=
    match fuel with
    | O => RPanic
    | S f =>
        match next_line cap content with
        | LErr => RErr
        | LNone => ROk (d, content, 0)
        | LLine line rest =>
            let nested l' d' :=
              match run f cap l' rest d' with
              | ROk (d1, rest1, n1) =>
                  match run f cap l rest1 d1 with
                  | ROk (d2, rest2, n2) => ROk (d2, rest2, N.max (1 + n1) n2)
                  | e => e
                  end
              | e => e
              end in
            let process c :=
              if c =? 118 then
                match version_line line with
                | ROk v => run f cap l rest {| sd_version := v; sd_media := sd_media d |}
                | RErr => RErr
                | RPanic => RPanic
                end
              else if c =? 116 then nested LpTime d
              else if c =? 109 then
                match media_line line with
                | ROk m => nested LpMedia {| sd_version := sd_version d; sd_media := sd_media d ++ [m] |}
                | RErr => RErr
                | RPanic => RPanic
                end
              else run f cap l rest d in
            match first_char line with
            | None => run f cap l rest d
            | Some c =>
                match l with
                | LpTop => process c
                | LpTime => if c =? 114 then run f cap l rest d else process c
                | LpMedia =>
                    if (c =? 105) || (c =? 99) || (c =? 98) || (c =? 107) then run f cap l rest d
                    else if c =? 97 then
                      match attribute_line line with
                      | RErr => RErr
                      | RPanic => RPanic
                      | ROk a =>
                          match add_attribute a (sd_media d) with
                          | None => RPanic
                          | Some ms => run f cap l rest {| sd_version := sd_version d; sd_media := ms |}
                          end
                      end
                    else process c
                end
            end
        end
    end.

  (** sdp.rs:395-407 *)
  Definition LINE_LIMIT : N := 4096.
  Definition sdp_run (content : bytes) : result (sdp * bytes * N) := run (S (length content)) LINE_LIMIT LpTop content sdp_new.
  Definition sdp_parse (content : bytes) : result sdp :=
    match sdp_run content with
    | ROk (d, _, _) => ROk d
    | RErr => RErr
    | RPanic => RPanic
    end.

  (** ** Classification of streams *)

  (** sdp.rs:219-286: the encoding of an rtpmap attribute; the other fields of `RTPMap` are parsed but not used *)
  Definition rtpmap_parse (s : bytes) : result bytes :=
    match read_decimal (trim s) with
    | RErr => RErr
    | RPanic => RPanic
    | ROk (_, r) =>
        let '(enc, r) := read_until 47 r in
        match match_char 47 r with
        | None => RErr
        | Some r =>
            match read_decimal r with
            | RErr => RErr
            | RPanic => RPanic
            | ROk (_, r) =>
                match skip_white r with
                | [] => ROk (trim enc)
                | r => match match_char 47 r with Some _ => ROk (trim enc) | None => RErr end
                end
            end
        end
    end.
  Definition rtpmap_of (a : attribute) : result bytes :=
    if beq (lc (at_name a)) (lit "rtpmap"%string)
    then match at_value a with Some v => rtpmap_parse v | None => RErr end
    else RErr.

  (** src/scanner/discovery.rs:455-459: the encodings, in upper case *)
  Fixpoint encodings (l : list attribute) : result (list bytes) :=
    match l with
    | [] => ROk []
    | a :: l' =>
        match rtpmap_of a with
        | RPanic => RPanic
        | r => match encodings l' with
               | ROk es => ROk (match r with ROk e => uc e :: es | _ => es end)
               | e => e
               end
        end
    end.
  Definition is_video (m : media) : bool := match md_type m with MVideo => true | _ => false end.
  Definition codecs : list bytes :=
    [lit "H264"; lit "H264-RCDO"; lit "H264-SVC"; lit "MP4V-ES"; lit "MPEG4-GENERIC"]%string.
  (** discovery.rs:445-470 *)
  Definition is_supported_rtsp (content : bytes) : result bool :=
    match sdp_parse content with
    | RPanic => RPanic
    | RErr => ROk false
    | ROk d =>
        match encodings (flat_map md_attrs (filter is_video (sd_media d))) with
        | ROk es => ROk (existsb (fun c => existsb (beq c) es) codecs)
        | RErr => RErr
        | RPanic => RPanic
        end
    end.

  (** discovery.rs:394-401 *)
  Inductive stype := SSupported | SLocked | SUnsupported | SNotFound | SError.
  (** discovery.rs:403-421 *)
  Definition rtsp_stream_type (code : N) (body : bytes) : result stype :=
    if code =? 200 then
      match is_supported_rtsp body with
      | ROk b => ROk (if b then SSupported else SUnsupported)
      | RErr => RErr
      | RPanic => RPanic
      end
    else if code =? 401 then ROk SLocked
    else if code =? 404 then ROk SNotFound
    else ROk SError.

  (** src/net/http/generic.rs:436-448, `get_header_field_value`: the value of the last field; discovery.rs:473-482 *)
  Definition is_supported_mjpeg (h : rheader) : bool :=
    let v := match last_field lc (lit "content-type"%string) h with
             | Some f => match hf_value f with Some v => v | None => [] end
             | None => []
             end in
    let t := lc v in
    starts_with (lit "multipart/x-mixed-replace"%string) t || starts_with (lit "image/jpeg"%string) t || starts_with (lit "image/jpg"%string) t.
  (** discovery.rs:423-441 *)
  Definition mjpeg_stream_type (h : rheader) : stype :=
    if rh_code h =? 200 then (if is_supported_mjpeg h then SSupported else SUnsupported)
    else if rh_code h =? 401 then SLocked
    else if rh_code h =? 404 then SNotFound
    else SError.
End Parser.
