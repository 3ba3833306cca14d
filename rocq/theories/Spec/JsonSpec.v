(** A reader of JSON text (RFC 8259, without white space and with integers only). *)
From Coq Require Import String NArith ZArith List Bool.
From Verif.Model Require Import Bytes TableJson.
Import ListNotations.
Local Open Scope N_scope.

Definition hexval (c : N) : option N :=
  if (48 <=? c) && (c <=? 57) then Some (c - 48)
  else if (97 <=? c) && (c <=? 102) then Some (c - 87)
  else if (65 <=? c) && (c <=? 70) then Some (c - 55) else None.
(** The rest after a given text *)
Fixpoint strip (p s : bytes) : option bytes :=
  match p, s with
  | [], _ => Some s
  | a :: p', b :: s' => if a =? b then strip p' s' else None
  | _, [] => None
  end.
(** Two hexadecimal digits; only escaped characters below 128 are read. *)
Definition unhex (s : bytes) : option (N * bytes) :=
  match s with
  | x :: y :: r =>
      match hexval x, hexval y with
      | Some a, Some b => if a <? 8 then Some (16 * a + b, r) else None
      | _, _ => None
      end
  | _ => None
  end.
(** A character after a backslash *)
Definition unescape (s : bytes) : option (N * bytes) :=
  match s with
  | [] => None
  | c :: r =>
      if (c =? 34) || (c =? 92) || (c =? 47) then Some (c, r)
      else if c =? 98 then Some (8, r) else if c =? 116 then Some (9, r) else if c =? 110 then Some (10, r)
      else if c =? 102 then Some (12, r) else if c =? 114 then Some (13, r)
      else if c =? 117 then match strip [48; 48] r with Some q => unhex q | None => None end
      else None
  end.
(** The rest of a string after its opening quote *)
Fixpoint jr_string (fuel : nat) (s : bytes) : option (bytes * bytes) :=
  match fuel with
  | O => None
  | S f =>
      match s with
      | [] => None
      | c :: r =>
          if c =? 34 then Some ([], r)
          else if c =? 92 then
            match unescape r with
            | Some (x, r') => match jr_string f r' with Some (t, q) => Some (x :: t, q) | None => None end
            | None => None
            end
          else if c <? 32 then None
          else match jr_string f r with Some (t, q) => Some (c :: t, q) | None => None end
      end
  end.
(** Decimal digits *)
Definition digit (c : N) : bool := (48 <=? c) && (c <=? 57).
Fixpoint jr_digits (s : bytes) : bytes * bytes :=
  match s with
  | c :: r => if digit c then (c :: fst (jr_digits r), snd (jr_digits r)) else ([], s)
  | [] => ([], [])
  end.
Definition dec_number (d : bytes) : Z := fold_left (fun a c => (10 * a + Z.of_N (c - 48))%Z) d 0%Z.
Definition jr_number (s : bytes) : option (Z * bytes) :=
  match jr_digits s with
  | ([], _) => None
  | (d, q) => Some (dec_number d, q)
  end.

Fixpoint jr_value (fuel : nat) (s : bytes) : option (json * bytes) :=
  match fuel, s with
  | S f, c :: r =>
      if c =? 110 then option_map (pair JNull) (strip (lit "ull"%string) r)
      else if c =? 116 then option_map (pair (JBool true)) (strip (lit "rue"%string) r)
      else if c =? 102 then option_map (pair (JBool false)) (strip (lit "alse"%string) r)
      else if c =? 34 then option_map (fun p => (JStr (fst p), snd p)) (jr_string f r)
      else if c =? 91 then
        match strip [93] r with
        | Some q => Some (JArr [], q)
        | None => option_map (fun p => (JArr (fst p), snd p)) (jr_items f r)
        end
      else if c =? 123 then
        match strip [125] r with
        | Some q => Some (JObj [], q)
        | None => option_map (fun p => (JObj (fst p), snd p)) (jr_fields f r)
        end
      else if c =? 45 then option_map (fun p => (JNum (- fst p), snd p)) (jr_number r)
      else option_map (fun p => (JNum (fst p), snd p)) (jr_number s)
  | _, _ => None
  end
with jr_items (fuel : nat) (s : bytes) : option (list json * bytes) :=
  match fuel with
  | O => None
  | S f =>
      match jr_value f s with
      | Some (v, c :: r) =>
          if c =? 93 then Some ([v], r)
          else if c =? 44 then option_map (fun p => (v :: fst p, snd p)) (jr_items f r) else None
      | _ => None
      end
  end
with jr_fields (fuel : nat) (s : bytes) : option (list (bytes * json) * bytes) :=
  match fuel, s with
  | S f, c0 :: s1 =>
      if c0 =? 34 then
        match jr_string f s1 with
        | Some (k, c1 :: s2) =>
            if c1 =? 58 then
              match jr_value f s2 with
              | Some (v, c :: r) =>
                  if c =? 125 then Some ([(k, v)], r)
                  else if c =? 44 then option_map (fun p => ((k, v) :: fst p, snd p)) (jr_fields f r) else None
              | _ => None
              end
            else None
        | _ => None
        end
      else None
  | _, _ => None
  end.
(** A whole document; [None] is not one. The fuel is never used up: every second call reads a byte. *)
Definition jread (s : bytes) : option json :=
  match jr_value (2 * List.length s) s with Some (j, []) => Some j | _ => None end.
Definition no_number (j : json) : bool := match j with JNum _ => false | _ => true end.
