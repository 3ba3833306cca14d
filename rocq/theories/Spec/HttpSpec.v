(** What HTTP-like streams mean. *)
From Coq Require Import NArith List Bool.
From Verif.Model Require Import Bytes Utf8 Text Http.
Import ListNotations.
Local Open Scope N_scope.

(** ** Lines *)

(** The stream cut at the first CR LF. *)
Fixpoint first_line (s : bytes) : option (bytes * bytes) :=
  match s with
  | [] => None
  | b :: r =>
      match r with
      | c :: r' => if (b =? 13) && (c =? 10) then Some ([], r')
                   else option_map (fun p => (b :: fst p, snd p)) (first_line r)
      | [] => None
      end
  end.

(** The first line of a stream for a reader that accepts at most [max] bytes, line end included. *)
Inductive cut := CLine (line rest : bytes) | CMore | CRefused.
Definition cut_line (max : N) (s : bytes) : cut :=
  match first_line s with
  | Some (l, r) => if (nlen l + 2 <=? max) && utf8_valid l then CLine l r else CRefused
  | None => if nlen s <? max then CMore else CRefused
  end.

(** A line that is accepted. *)
Definition good_line (max : N) (l : bytes) : Prop :=
  first_line (l ++ [13; 10]) = Some (l, []) /\ nlen l + 2 <= max /\ utf8_valid l = true.

Definition with_ends (ls : list bytes) : bytes := concat (map (fun l => l ++ [13; 10]) ls).

(** All items obtained from a decoder that is called again after every item. *)
Fixpoint drain {T A} (fuel : nat) (dec : T -> bytes -> outcome T A) (s : T) (data : bytes) : list A * outcome T A :=
  match fuel with
  | O => ([], Crash)
  | S f => match dec s data with
           | Item a s' r => let '(l, o) := drain f dec s' r in (a :: l, o)
           | o => ([], o)
           end
  end.
Fixpoint deliver {T A} (dec : T -> bytes -> outcome T A) (s : T) (buf : bytes) (pieces : list bytes) : list A * outcome T A :=
  match pieces with
  | [] => ([], More s buf)
  | p :: ps =>
      match drain (S (length (buf ++ p))) dec s (buf ++ p) with
      | (l, More s' r) => let '(l2, o) := deliver dec s' r ps in (l ++ l2, o)
      | (l, o) => (l, o)
      end
  end.

(** ** Chunking *)

(** The outcome with the unread pieces added to the data left. *)
Definition reading {S A} (r : outcome S A * list bytes) : outcome S A :=
  match r with
  | (Item a s rest, ps) => Item a s (rest ++ concat ps)
  | (o, _) => o
  end.

(** ** Headers *)

(** A line that continues the one before: it starts with white space. *)
Definition continuation (l : bytes) : bool := negb (beq (trim_start l) l).

(** Lines joined with their continuations. *)
Fixpoint unfold_lines (ls : list bytes) : list bytes :=
  match ls with
  | [] => []
  | l :: ls' =>
      match ls' with
      | l2 :: _ =>
          if continuation l2 then match unfold_lines ls' with f :: fs => (l ++ f) :: fs | [] => [l] end
          else l :: unfold_lines ls'
      | [] => [l]
      end
  end.

(** Operations on header fields. *)
Inductive fop := FAdd (f : hfield) | FSet (f : hfield).
Definition fop_apply lc (h : hfields) (o : fop) : hfields :=
  match o with FAdd f => fields_add lc f h | FSet f => fields_set lc f h end.
Definition fields_of lc (os : list fop) : hfields := fold_left (fop_apply lc) os fields_new.

(** The fields that should be there. *)
Definition same_name lc (a : bytes) (f : hfield) : bool := beq (lc a) (lc (hf_name f)).
Definition listed lc (os : list fop) : list hfield :=
  fold_left (fun l o => match o with
                        | FAdd f => l ++ [f]
                        | FSet f => filter (fun g => negb (same_name lc (hf_name f) g)) l ++ [f]
                        end) os [].

(** A status line: protocol and version, the code, the rest. *)
Definition visible (b : N) : Prop := 33 <= b <= 126.
Definition status_line (protocol version code reason : bytes) : bytes := protocol ++ [47] ++ version ++ [32] ++ code ++ reason.
Definition good_status (protocol version code reason : bytes) (n : N) : Prop :=
  ~ In 47 protocol /\ version <> [] /\ Forall visible version /\ code <> [] /\ digits_val 10 code 0 = Some n /\ n < 65536 /\
  (reason = [] \/ exists r, reason = 32 :: r).

(** The fields of a header given by its lines after the status line. *)
Definition line_fields (ls : list bytes) : list hfield := map field_parse (unfold_lines ls).
(** The last field with a name. *)
Definition newest lc (name : bytes) (fs : list hfield) : option hfield :=
  fold_left (fun o f => if same_name lc name f then Some f else o) fs None.

(** Lines within the limits *)
Definition header_lines (maxlen maxlines : N) (l0 : bytes) (ls : list bytes) : Prop :=
  good_line maxlen l0 /\ Forall (good_line maxlen) ls /\ Forall (fun l => l <> []) ls /\ nlen ls + 2 <= maxlines.

Definition header_of lc (protocol version : bytes) (code : N) (reason : bytes) (fs : list hfield) : rheader :=
  {| rh_protocol := protocol; rh_version := version; rh_code := code; rh_line := trim reason; rh_fields := fields_of lc (map FAdd fs) |}.

(** A Content-Length for which no buffer can be allocated. *)
Definition too_long (bits : N) (f : hfield) : Prop :=
  exists v d n, hf_value f = Some v /\ (v = d \/ v = 43 :: d) /\ d <> [] /\ digits_val 10 d 0 = Some n /\ 2 ^ (bits - 1) <= n < 2 ^ bits.

(** Codes of responses without a body. *)
Definition no_body (code : N) : bool := ((100 <=? code) && (code <? 200)) || (code =? 204) || (code =? 304).

(** ** Chunked coding *)

(** A chunk as sent: the size in hexadecimal, an extension (empty or starting with a semicolon), the data. *)
Record chunk := { ck_size : bytes; ck_ext : bytes; ck_data : bytes }.

Definition hexadecimal (s : bytes) (n : N) : Prop := s <> [] /\ digits_val 16 s 0 = Some n.
Definition chunk_head (max : N) (size ext : bytes) : Prop := (ext = [] \/ exists e, ext = 59 :: e) /\ good_line max (size ++ ext).
Definition good_chunk (bits max : N) (c : chunk) : Prop :=
  hexadecimal (ck_size c) (nlen (ck_data c)) /\ ck_data c <> [] /\ nlen (ck_data c) < 2 ^ bits /\ chunk_head max (ck_size c) (ck_ext c).

Definition chunk_bytes (c : chunk) : bytes := ck_size c ++ ck_ext c ++ [13; 10] ++ ck_data c ++ [13; 10].
(** The coding of a body: chunks, a last chunk of size zero, trailer lines, an empty line. *)
Definition chunked_bytes (cs : list chunk) (zero ext : bytes) (trailer : list bytes) : bytes :=
  concat (map chunk_bytes cs) ++ zero ++ ext ++ [13; 10] ++ with_ends trailer ++ [13; 10].
