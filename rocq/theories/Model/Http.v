(** HTTP-like messages: src/net/http/generic.rs and the codecs of src/net/http/mod.rs and
    src/net/rtsp/mod.rs.

    Strings are the byte lists of their UTF-8 encodings. `str::to_lowercase` is the argument [lc]. The widths of
    `usize` and `isize` are those of [bits] bits. After an error a decoder is never used again (Framed of
    tokio-util 0.7 ends the stream), so no state is kept with an error. *)
From Coq Require Import String NArith List Bool.
From Verif.Model Require Import Bytes Utf8 Text.
Import ListNotations.
Local Open Scope N_scope.

(** Result of `Decoder::decode`: an item, or more data is needed; in both cases with the new state and the
    data left in the input buffer; an error; a panic. *)
Inductive outcome (S A : Type) : Type :=
| Item (a : A) (s : S) (rest : bytes)
| More (s : S) (rest : bytes)
| Fail
| Crash.
Arguments Item {S A} _ _ _.
Arguments More {S A} _ _.
Arguments Fail {S A}.
Arguments Crash {S A}.

(** ** String reader, src/utils/string/reader.rs. The state is the rest of the input. *)

(** A white space character at the beginning of the input. *)
Definition white_first (s : bytes) : bool := existsb (fun w => starts_with w s) white_chars.

(** `read_until` (reader.rs:170-187) for one ASCII character. *)
Fixpoint read_until (c : N) (s : bytes) : bytes * bytes :=
  match s with
  | [] => ([], [])
  | b :: s' => if b =? c then ([], s) else let '(w, r) := read_until c s' in (b :: w, r)
  end.
(** `read_until(char::is_whitespace)` *)
Fixpoint read_until_white (s : bytes) : bytes * bytes :=
  match s with
  | [] => ([], [])
  | b :: s' => if white_first s then ([], s) else let '(w, r) := read_until_white s' in (b :: w, r)
  end.
(** `skip_whitespace` (reader.rs:114-123) *)
Definition skip_white (s : bytes) : bytes := trim_start s.
(** `read_word` (reader.rs:189-195) *)
Definition read_word (s : bytes) : bytes * bytes := read_until_white (skip_white s).
(** `match_char` (reader.rs:90-103) for an ASCII character *)
Definition match_char (c : N) (s : bytes) : option bytes :=
  match s with
  | b :: s' => if b =? c then Some s' else None
  | [] => None
  end.

(** ** Header fields *)

(** src/net/http/generic.rs:69-108. The stored lowercase name is [lc (hf_name f)] for every field
    (`HeaderField::new` is the only constructor). *)
Record hfield := { hf_name : bytes; hf_value : option bytes }.

(** generic.rs:110-121 *)
Definition field_text (f : hfield) : bytes :=
  match hf_value f with
  | Some v => hf_name f ++ [58; 32] ++ v
  | None => hf_name f
  end.

(** generic.rs:145-168. The slices at the position of a colon are at character boundaries. *)
Definition field_parse (s : bytes) : hfield :=
  match find_char 58 s with
  | Some i => {| hf_name := trim (firstn i s); hf_value := Some (trim (skipn (S i) s)) |}
  | None => {| hf_name := trim s; hf_value := None |}
  end.

(** generic.rs:170-175: the list and the hash map by lowercase name *)
Record hfields := { f_list : list hfield; f_map : list (bytes * list hfield) }.
Definition fields_new : hfields := {| f_list := []; f_map := [] |}.

Fixpoint map_get (k : bytes) (m : list (bytes * list hfield)) : option (list hfield) :=
  match m with
  | [] => None
  | (k', v) :: m' => if beq k k' then Some v else map_get k m'
  end.
Definition map_remove (k : bytes) (m : list (bytes * list hfield)) : list (bytes * list hfield) :=
  filter (fun e => negb (beq k (fst e))) m.
Definition map_insert (k : bytes) (v : list hfield) (m : list (bytes * list hfield)) : list (bytes * list hfield) :=
  (k, v) :: map_remove k m.

Section Http.
  (** `str::to_lowercase` *)
  Variable lc : bytes -> bytes.
  (** Bits of `usize` *)
  Variable bits : N.
  Definition usize_max : N := 2 ^ bits - 1.
  Definition isize_max : N := 2 ^ (bits - 1) - 1.

  (** generic.rs:183-197 *)
  Definition fields_add (f : hfield) (h : hfields) : hfields :=
    let name := lc (hf_name f) in
    let fields := match map_get name (f_map h) with Some l => l | None => [] end in
    {| f_list := f_list h ++ [f]; f_map := map_insert name (fields ++ [f]) (map_remove name (f_map h)) |}.

  (** generic.rs:199-216 *)
  Definition fields_set (f : hfield) (h : hfields) : hfields :=
    let name := lc (hf_name f) in
    {| f_list := filter (fun g => negb (beq name (lc (hf_name g)))) (f_list h) ++ [f]; f_map := map_insert name [f] (f_map h) |}.

  (** generic.rs:218-224 *)
  Definition fields_get (name : bytes) (h : hfields) : list hfield :=
    match map_get (lc name) (f_map h) with Some l => l | None => [] end.

  (** generic.rs:283-303: the text of a request header *)
  Definition request_text (method path protocol version : bytes) (h : hfields) : bytes :=
    method ++ [32] ++ path ++ [32] ++ protocol ++ [47] ++ version ++ [13; 10] ++
    flat_map (fun f => field_text f ++ [13; 10]) (f_list h) ++ [13; 10].

  (** ** Response header *)

  (** generic.rs:395-403 *)
  Record rheader := { rh_protocol : bytes; rh_version : bytes; rh_code : N; rh_line : bytes; rh_fields : hfields }.

  (** generic.rs:451-482 *)
  Definition status_parse (s : bytes) : option rheader :=
    let '(protocol, r) := read_until 47 s in
    match match_char 47 r with
    | None => None
    | Some r =>
        let '(version, r) := read_word r in
        let '(code, r) := read_word r in
        match parse_uint 10 65535 code with
        | None => None
        | Some c => Some {| rh_protocol := protocol; rh_version := version; rh_code := c; rh_line := trim r; rh_fields := fields_new |}
        end
    end.

  (** ** Lines *)

  (** The loop of generic.rs:566-582: the first index from [i] on, among [n], where the separator is found. *)
  Fixpoint find_sep (n i : nat) (sep buf : bytes) : option nat :=
    match n with
    | O => None
    | S n' => if starts_with sep (skipn i buf) then Some i else find_sep n' (S i) sep buf
    end.

  (** generic.rs:508-593; the state is the internal buffer. The difference of line 549 panics or gives an index
      out of range if the buffer is longer than the maximum. *)
  Definition line_decode (sep : bytes) (max : N) (buf : bytes) (data : bytes) : outcome bytes bytes :=
    if (max <? nlen buf + nlen data) && (max <? nlen buf) then Crash
    else
      let append := if max <? nlen buf + nlen data then N.to_nat (max - nlen buf) else length data in
      let buf' := buf ++ firstn append data in
      let start := (length buf - length sep)%nat in
      let stop := if Nat.leb (length sep) (length buf') then (length buf' - length sep + 1)%nat else O in
      match find_sep (stop - start) start sep buf' with
      | Some i =>
          let line := firstn i buf' in
          if utf8_valid line then Item line [] (skipn (i + length sep - length buf) data) else Fail
      | None =>
          if max <=? nlen buf' then Fail else More buf' (skipn append data)
      end.

  Definition crlf : bytes := [13; 10].

  (** generic.rs:595-625 *)
  Record hdec := { hd_buf : bytes; hd_header : option rheader; hd_field : bytes; hd_lines : N }.
  Definition hdec_new : hdec := {| hd_buf := []; hd_header := None; hd_field := []; hd_lines := 0 |}.

  (** A field is added to a header under construction (generic.rs:644). *)
  Definition header_add (f : bytes) (h : rheader) : rheader :=
    {| rh_protocol := rh_protocol h; rh_version := rh_version h; rh_code := rh_code h; rh_line := rh_line h;
       rh_fields := fields_add (field_parse f) (rh_fields h) |}.

  (** generic.rs:627-666. The first argument bounds the number of lines; the loop ends before it is used up. *)
  Fixpoint header_loop (fuel : nat) (maxlen maxlines : N) (s : hdec) (data : bytes) : outcome hdec rheader :=
    match fuel with
    | O => Crash
    | S f =>
        match line_decode crlf maxlen (hd_buf s) data with
        | Crash => Crash
        | Fail => Fail
        | More buf rest => More {| hd_buf := buf; hd_header := hd_header s; hd_field := hd_field s; hd_lines := hd_lines s |} rest
        | Item line buf rest =>
            let lines := hd_lines s + 1 in
            if maxlines <? lines then Fail
            else
              match hd_header s with
              | Some h =>
                  let commit := negb (white_first line) in
                  let add := commit && match hd_field s with [] => false | _ => true end in
                  let h' := if add then header_add (hd_field s) h else h in
                  let field := (if add then [] else hd_field s) ++ line in
                  match line with
                  | [] => Item h' hdec_new rest
                  | _ => header_loop f maxlen maxlines {| hd_buf := buf; hd_header := Some h'; hd_field := field; hd_lines := lines |} rest
                  end
              | None =>
                  match status_parse line with
                  | None => Fail
                  | Some h => header_loop f maxlen maxlines {| hd_buf := buf; hd_header := Some h; hd_field := hd_field s; hd_lines := lines |} rest
                  end
              end
        end
    end.
  Definition header_decode (maxlen maxlines : N) (s : hdec) (data : bytes) : outcome hdec rheader :=
    header_loop (S (length data)) maxlen maxlines s data.

  (** ** Bodies *)

  (** generic.rs:709-730; the state is the body collected. *)
  Definition simple_decode (ignore : bool) (body data : bytes) : outcome bytes bytes :=
    More (if ignore then body else body ++ data) [].
  Definition simple_decode_eof (ignore : bool) (body data : bytes) : outcome bytes bytes :=
    Item (if ignore then body else body ++ data) [] [].

  (** generic.rs:732-756; allocating more than `isize::MAX` bytes panics *)
  Record fdec := { fd_body : option bytes; fd_expected : N }.
  Definition fixed_new (n : N) (ignore : bool) : option fdec :=
    if negb ignore && (isize_max <? n) then None else Some {| fd_body := Some []; fd_expected := n |}.

  (** generic.rs:762-786 *)
  Definition fixed_decode (ignore : bool) (s : fdec) (data : bytes) : outcome fdec bytes :=
    let take := if fd_expected s <? nlen data then fd_expected s else nlen data in
    let expected := fd_expected s - take in
    let body := match fd_body s with
                | Some b => Some (if ignore then b else b ++ firstn (N.to_nat take) data)
                | None => None
                end in
    let rest := skipn (N.to_nat take) data in
    if 0 <? expected then More {| fd_body := body; fd_expected := expected |} rest
    else match body with
         | Some b => Item b {| fd_body := None; fd_expected := expected |} rest
         | None => Fail
         end.
  (** generic.rs:788-798 *)
  Definition fixed_decode_eof (ignore : bool) (s : fdec) (data : bytes) : outcome fdec bytes :=
    match fixed_decode ignore s data with
    | More s' rest =>
        match fd_body s' with
        | Some b => Item b {| fd_body := None; fd_expected := fd_expected s' |} rest
        | None => Fail
        end
    | o => o
    end.

  (** generic.rs:801-830 *)
  Inductive cstep := CHeader | CBody | CDelimiter | CTrailer | CCompleted.
  Record cdec := { cd_state : cstep; cd_buf : bytes; cd_body : bytes; cd_expected : N }.
  Definition chunked_new : cdec := {| cd_state := CHeader; cd_buf := []; cd_body := []; cd_expected := 0 |}.

  (** generic.rs:902-916; the first argument bounds the number of lines. *)
  Fixpoint trailer_loop (fuel : nat) (maxlen : N) (s : cdec) (data : bytes) : outcome cdec bytes :=
    match fuel with
    | O => Crash
    | S f =>
        match line_decode crlf maxlen (cd_buf s) data with
        | Crash => Crash
        | Fail => Fail
        | More buf rest => More {| cd_state := cd_state s; cd_buf := buf; cd_body := cd_body s; cd_expected := cd_expected s |} rest
        | Item [] buf rest => Item (cd_body s) {| cd_state := CCompleted; cd_buf := buf; cd_body := []; cd_expected := cd_expected s |} rest
        | Item _ buf rest => trailer_loop f maxlen {| cd_state := cd_state s; cd_buf := buf; cd_body := cd_body s; cd_expected := cd_expected s |} rest
        end
    end.

  (** generic.rs:832-900 *)
  Definition chunked_step (maxlen : N) (ignore : bool) (s : cdec) (data : bytes) : outcome cdec bytes :=
    match cd_state s with
    | CHeader =>
        match line_decode crlf maxlen (cd_buf s) data with
        | Crash => Crash
        | Fail => Fail
        | More buf rest => More {| cd_state := CHeader; cd_buf := buf; cd_body := cd_body s; cd_expected := cd_expected s |} rest
        | Item line buf rest =>
            match parse_uint 16 usize_max (fst (read_until 59 line)) with
            | None => Fail
            | Some n => More {| cd_state := if 0 <? n then CBody else CTrailer; cd_buf := buf; cd_body := cd_body s; cd_expected := n |} rest
            end
        end
    | CBody =>
        let take := if cd_expected s <? nlen data then cd_expected s else nlen data in
        let expected := cd_expected s - take in
        More {| cd_state := if expected =? 0 then CDelimiter else CBody; cd_buf := cd_buf s;
                cd_body := if ignore then cd_body s else cd_body s ++ firstn (N.to_nat take) data;
                cd_expected := expected |} (skipn (N.to_nat take) data)
    | CDelimiter =>
        match line_decode crlf maxlen (cd_buf s) data with
        | Crash => Crash
        | Fail => Fail
        | More buf rest => More {| cd_state := CDelimiter; cd_buf := buf; cd_body := cd_body s; cd_expected := cd_expected s |} rest
        | Item _ buf rest => More {| cd_state := CHeader; cd_buf := buf; cd_body := cd_body s; cd_expected := cd_expected s |} rest
        end
    | CTrailer => trailer_loop (S (length data)) maxlen s data
    | CCompleted => Fail
    end.

  (** generic.rs:923-933; the first argument bounds the number of steps. *)
  Fixpoint chunked_loop (fuel : nat) (maxlen : N) (ignore : bool) (s : cdec) (data : bytes) : outcome cdec bytes :=
    match data with
    | [] => More s []
    | _ =>
        match fuel with
        | O => Crash
        | S f =>
            match chunked_step maxlen ignore s data with
            | More s' rest => chunked_loop f maxlen ignore s' rest
            | o => o
            end
        end
    end.
  Definition chunked_decode (maxlen : N) (ignore : bool) (s : cdec) (data : bytes) : outcome cdec bytes :=
    chunked_loop (S (length data)) maxlen ignore s data.
  (** generic.rs:935-950 *)
  Definition chunked_decode_eof (maxlen : N) (ignore : bool) (s : cdec) (data : bytes) : outcome cdec bytes :=
    match chunked_decode maxlen ignore s data with
    | More s' rest =>
        match cd_state s' with
        | CCompleted => Fail
        | _ => Item (cd_body s') {| cd_state := CCompleted; cd_buf := cd_buf s'; cd_body := []; cd_expected := cd_expected s' |} rest
        end
    | o => o
    end.

  (** ** Codecs *)

  Inductive bdec := DSimple (b : bytes) | DFixed (d : fdec) | DChunked (d : cdec).
  Definition lift {S A} (f : S -> bdec) (o : outcome S A) : outcome bdec A :=
    match o with
    | Item a s r => Item a (f s) r
    | More s r => More (f s) r
    | Fail => Fail
    | Crash => Crash
    end.
  Definition body_decode (maxlen : N) (ignore : bool) (d : bdec) (data : bytes) : outcome bdec bytes :=
    match d with
    | DSimple b => lift DSimple (simple_decode ignore b data)
    | DFixed d => lift DFixed (fixed_decode ignore d data)
    | DChunked d => lift DChunked (chunked_decode maxlen ignore d data)
    end.
  Definition body_decode_eof (maxlen : N) (ignore : bool) (d : bdec) (data : bytes) : outcome bdec bytes :=
    match d with
    | DSimple b => lift DSimple (simple_decode_eof ignore b data)
    | DFixed d => lift DFixed (fixed_decode_eof ignore d data)
    | DChunked d => lift DChunked (chunked_decode_eof maxlen ignore d data)
    end.

  (** `Option::ok_or` and the panics of `Vec::with_capacity` *)
  Definition fixed_body (n : N) (ignore : bool) : result bdec :=
    match fixed_new n ignore with Some d => ROk (DFixed d) | None => RPanic end.
  (** http/mod.rs:377-387 and rtsp/mod.rs:349-356 *)
  Definition length_body (f : hfield) (ignore : bool) : result bdec :=
    match hf_value f with
    | None => RErr
    | Some v => match parse_uint 10 usize_max v with
                | None => RErr
                | Some n => fixed_body n ignore
                end
    end.
  Definition last_field (name : bytes) (h : rheader) : option hfield :=
    match rev (fields_get name (rh_fields h)) with f :: _ => Some f | [] => None end.

  (** http/mod.rs:359-390 *)
  Definition http_body (ignore : bool) (h : rheader) : result bdec :=
    let code := rh_code h in
    if ((100 <=? code) && (code <? 200)) || (code =? 204) || (code =? 304) then fixed_body 0 ignore
    else
      match last_field (lit "transfer-encoding"%string) h with
      | Some f =>
          if beq (lc (match hf_value f with Some v => v | None => [] end)) (lit "chunked"%string)
          then ROk (DChunked chunked_new) else ROk (DSimple [])
      | None =>
          match last_field (lit "content-length"%string) h with
          | Some f => length_body f ignore
          | None => ROk (DSimple [])
          end
      end.
  (** rtsp/mod.rs:349-359 *)
  Definition rtsp_body (ignore : bool) (h : rheader) : result bdec :=
    match last_field (lit "content-length"%string) h with
    | Some f => length_body f ignore
    | None => fixed_body 0 ignore
    end.

  (** http/mod.rs:266-286 and rtsp/mod.rs:267-287 *)
  Definition http_ok (h : rheader) : bool :=
    beq (rh_protocol h) (lit "HTTP"%string) && (beq (rh_version h) (lit "1.0"%string) || beq (rh_version h) (lit "1.1"%string)).
  Definition rtsp_ok (h : rheader) : bool := beq (rh_protocol h) (lit "RTSP"%string) && beq (rh_version h) (lit "1.0"%string).

  (** http/mod.rs:324-331, rtsp/mod.rs:320-326 *)
  Record codec := { cc_hdec : hdec; cc_header : option rheader; cc_bdec : option bdec }.
  Definition codec_new : codec := {| cc_hdec := hdec_new; cc_header := None; cc_bdec := None |}.

  (** The limits and options of a request; both codecs differ in the choice of the body decoder and in the test
      of protocol and version only. *)
  Record settings := {
    st_maxlen : N;
    st_maxlines : N;
    st_ignore : bool;
    st_body : bool -> rheader -> result bdec;
    st_ok : rheader -> bool
  }.

  (** The second half of `decode` and of `decode_eof` (http/mod.rs:397-410, 422-435; rtsp/mod.rs alike) *)
  Definition codec_body (c : settings) (dec : bdec -> bytes -> outcome bdec bytes) (s : codec) (data : bytes)
    : outcome codec (rheader * bytes) :=
    match cc_bdec s with
    | None => More s data
    | Some d =>
        match dec d data with
        | Crash => Crash
        | Fail => Fail
        | More d' rest => More {| cc_hdec := cc_hdec s; cc_header := cc_header s; cc_bdec := Some d' |} rest
        | Item body d' rest =>
            match cc_header s with
            | None => Crash
            | Some h =>
                if st_ok c h then Item (h, body) {| cc_hdec := cc_hdec s; cc_header := None; cc_bdec := None |} rest else Fail
            end
        end
    end.

  (** http/mod.rs:356-411, rtsp/mod.rs:346-380 *)
  Definition codec_decode (c : settings) (s : codec) (data : bytes) : outcome codec (rheader * bytes) :=
    let dec := body_decode (st_maxlen c) (st_ignore c) in
    match cc_header s with
    | Some _ => codec_body c dec s data
    | None =>
        match header_decode (st_maxlen c) (st_maxlines c) (cc_hdec s) data with
        | Crash => Crash
        | Fail => Fail
        | More hd rest => codec_body c dec {| cc_hdec := hd; cc_header := None; cc_bdec := cc_bdec s |} rest
        | Item h hd rest =>
            match st_body c (st_ignore c) h with
            | RPanic => Crash
            | RErr => Fail
            | ROk d => codec_body c dec {| cc_hdec := hd; cc_header := Some h; cc_bdec := Some d |} rest
            end
        end
    end.

  (** http/mod.rs:413-436, rtsp/mod.rs:382-405; the first argument bounds the number of rounds. *)
  Fixpoint codec_eof_loop (fuel : nat) (c : settings) (s : codec) (data : bytes) : outcome codec (rheader * bytes) :=
    match data with
    | [] => codec_body c (body_decode_eof (st_maxlen c) (st_ignore c)) s []
    | _ =>
        match fuel with
        | O => Crash
        | S f => match codec_decode c s data with
                 | More s' rest => codec_eof_loop f c s' rest
                 | o => o
                 end
        end
    end.
  Definition codec_decode_eof (c : settings) (s : codec) (data : bytes) : outcome codec (rheader * bytes) :=
    codec_eof_loop (S (length data)) c s data.

  Definition http (maxlen maxlines : N) (ignore : bool) : settings :=
    {| st_maxlen := maxlen; st_maxlines := maxlines; st_ignore := ignore; st_body := http_body; st_ok := http_ok |}.
  Definition rtsp (maxlen maxlines : N) (ignore : bool) : settings :=
    {| st_maxlen := maxlen; st_maxlines := maxlines; st_ignore := ignore; st_body := rtsp_body; st_ok := rtsp_ok |}.
End Http.

(** ** Reading from a connection *)

(** Framed (tokio-util): every piece of data read is appended to the buffer and the decoder is called, until
    the first item. The remaining pieces stay unread. *)
Fixpoint feed {S A} (dec : S -> bytes -> outcome S A) (s : S) (buf : bytes) (pieces : list bytes) : outcome S A * list bytes :=
  match pieces with
  | [] => (More s buf, [])
  | p :: ps =>
      match dec s (buf ++ p) with
      | More s' rest => feed dec s' rest ps
      | o => (o, ps)
      end
  end.

(** The response to a request (http/mod.rs:230-247, rtsp/mod.rs alike): the pieces read and, if [closed], the end
    of the stream. *)
Inductive reception := Response (h : rheader) (body : bytes) | Waiting | Closed | Error | Panic.
Definition receive lc bits (c : settings) (pieces : list bytes) (closed : bool) : reception :=
  let give o := match o with
                | Item (h, body) _ _ => Response h body
                | More _ _ => Closed
                | Fail => Error
                | Crash => Panic
                end in
  match fst (feed (codec_decode lc bits c) codec_new [] pieces) with
  | More s rest => if closed then give (codec_decode_eof lc bits c s rest) else Waiting
  | o => give o
  end.
