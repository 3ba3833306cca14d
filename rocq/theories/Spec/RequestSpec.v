(** What a request means to the server that gets it. *)
From Coq Require Import String NArith List Bool.
From Verif.Model Require Import Bytes Text Utf8 Service Http Request.
From Verif.Spec Require Import HttpSpec.
Import ListNotations.
Local Open Scope N_scope.

(** `str::to_lowercase` on ASCII text *)
Definition ascii_lc (lc : bytes -> bytes) : Prop := forall s, Forall (fun b => b < 128) s -> lc s = map lower s.
(** The characters of a printed IPv6 address: digits, letters a-f, colons and dots *)
Definition v6_char (b : N) : Prop := 48 <= b <= 58 \/ 97 <= b <= 102 \/ b = 46.
Definition v6_ok (v6 : N -> bytes) : Prop := forall n, Forall v6_char (v6 n).
(** A socket address *)
Definition addr_ok (a : saddr) : Prop := sa_port a <= 65535.
(** A path as the path files are meant to contain it, or nothing *)
Definition slash (path : bytes) : Prop := path = [] \/ exists r, path = 47 :: r.

(** Everything in front of the fragment *)
Definition cut_fragment (path : bytes) : bytes := match rfind_char 35 path with Some i => firstn i path | None => path end.
(** What is asked for in a GET request *)
Definition http_target (path : bytes) : bytes := match path with [] => [47] | _ => cut_fragment path end.

(** The server reads lines up to an empty one, the words of the first line, and the fields of the others. *)
Fixpoint read_lines (fuel : nat) (s : bytes) : option (list bytes * bytes) :=
  match fuel with
  | O => None
  | S f => match first_line s with
           | None => None
           | Some ([], r) => Some ([], r)
           | Some (l, r) => option_map (fun p => (l :: fst p, snd p)) (read_lines f r)
           end
  end.
Record read := { rd_method : bytes; rd_target : bytes; rd_protocol : bytes; rd_fields : list hfield; rd_rest : bytes }.
Definition read_request (s : bytes) : option read :=
  match read_lines (List.length s) s with
  | Some (l :: ls, r) =>
      match split_on 32 l with
      | [m; t; p] => Some {| rd_method := m; rd_target := t; rd_protocol := p; rd_fields := map field_parse ls; rd_rest := r |}
      | _ => None
      end
  | _ => None
  end.

(** No space and no line break *)
Definition unbroken (path : bytes) : Prop := Forall (fun b => b <> 32 /\ b <> 13 /\ b <> 10) path.

Definition field (n v : bytes) : hfield := {| hf_name := n; hf_value := Some v |}.

(** Steps of building a request *)
Inductive gstep := GSet (name value : bytes) | GAdd (name value : bytes) | GBody (body : bytes) | GVersion (version : bytes).
Definition build lc (g : grequest) (o : gstep) : grequest :=
  match o with
  | GSet n v => g_set_field lc n v g
  | GAdd n v => g_add_field lc n v g
  | GBody b => g_set_body b g
  | GVersion v => g_set_version v g
  end.
Definition field_steps (os : list gstep) : list fop :=
  flat_map (fun o => match o with GSet n v => [FSet (field n v)] | GAdd n v => [FAdd (field n v)] | _ => [] end) os.
Definition last_body (os : list gstep) : bytes := fold_left (fun x o => match o with GBody b => b | _ => x end) os [].
Definition last_version (version : bytes) (os : list gstep) : bytes := fold_left (fun x o => match o with GVersion v => v | _ => x end) os version.

(** The words of the methods (RFC 1945 and 2616; RFC 2326) *)
Definition http_words : list (http_method * bytes) :=
  [(HOPTIONS, lit "OPTIONS"%string); (HHEAD, lit "HEAD"%string); (HGET, lit "GET"%string); (HPOST, lit "POST"%string);
   (HPUT, lit "PUT"%string); (HDELETE, lit "DELETE"%string); (HTRACE, lit "TRACE"%string); (HCONNECT, lit "CONNECT"%string)].
Definition rtsp_words : list (rtsp_method * bytes) :=
  [(ROPTIONS, lit "OPTIONS"%string); (RDESCRIBE, lit "DESCRIBE"%string); (RANNOUNCE, lit "ANNOUNCE"%string); (RSETUP, lit "SETUP"%string);
   (RPLAY, lit "PLAY"%string); (RPAUSE, lit "PAUSE"%string); (RTEARDOWN, lit "TEARDOWN"%string); (RGET_PARAMETER, lit "GET_PARAMETER"%string);
   (RSET_PARAMETER, lit "SET_PARAMETER"%string); (RREDIRECT, lit "REDIRECT"%string); (RRECORD, lit "RECORD"%string)].
