(** Text handling of the Rust standard library used by the parsers: splitting, numbers. Strings are
    the byte lists of their UTF-8 encodings. *)
From Coq Require Import NArith List Bool.
From Verif.Model Require Import Bytes.
Import ListNotations.
Local Open Scope N_scope.

(** `str::split` with an ASCII character: the pieces between the separators, at least one. *)
Fixpoint split_on (c : N) (s : bytes) : list bytes :=
  match s with
  | [] => [[]]
  | b :: s' =>
      if N.eqb b c then [] :: split_on c s'
      else match split_on c s' with
           | [] => [[b]]
           | p :: ps => (b :: p) :: ps
           end
  end.

(** `char::to_digit` *)
Definition digit_val (radix c : N) : option N :=
  let v := if (48 <=? c) && (c <=? 57) then Some (c - 48)
           else if (97 <=? c) && (c <=? 122) then Some (c - 87)
           else if (65 <=? c) && (c <=? 90) then Some (c - 55)
           else None in
  match v with
  | Some d => if d <? radix then Some d else None
  | None => None
  end.

(** Value of a digit sequence, [None] if a character is not a digit. *)
Fixpoint digits_val (radix : N) (s : bytes) (acc : N) : option N :=
  match s with
  | [] => Some acc
  | c :: s' => match digit_val radix c with
               | Some d => digits_val radix s' (acc * radix + d)
               | None => None
               end
  end.

(** `from_str_radix` (and `parse`) of an unsigned type with maximum [max]: an optional plus sign and at
    least one digit. *)
Definition parse_uint (radix max : N) (s : bytes) : option N :=
  let body := match s with
              | 43 :: ((_ :: _) as r) => r
              | _ => s
              end in
  match body with
  | [] => None
  | _ => match digits_val radix body 0 with
         | Some v => if v <=? max then Some v else None
         | None => None
         end
  end.

(** Lower case hexadecimal digit. *)
Definition hex_digit (d : N) : N := if d <? 10 then 48 + d else 87 + d.

(** `{:02x}` of a u8 *)
Definition hex2 (b : N) : bytes := [hex_digit (b / 16); hex_digit (b mod 16)].

(** `{}` of an unsigned integer: decimal digits without leading zeros. The first argument bounds the
    number of digits. *)
Fixpoint print_dec_fuel (fuel : nat) (n : N) : bytes :=
  match fuel with
  | O => []
  | S f => if n <? 10 then [48 + n] else print_dec_fuel f (n / 10) ++ [48 + n mod 10]
  end.
Definition print_dec (n : N) : bytes := print_dec_fuel (S (N.size_nat n)) n.

(** Pieces with a separator between them. *)
Fixpoint join (sep : bytes) (l : list bytes) : bytes :=
  match l with
  | [] => []
  | [p] => p
  | p :: l' => p ++ sep ++ join sep l'
  end.

(** `str::find` and `str::rfind` with an ASCII character: position of the first and last occurrence. *)
Fixpoint find_char (c : N) (s : bytes) : option nat :=
  match s with
  | [] => None
  | b :: s' => if N.eqb b c then Some O else option_map S (find_char c s')
  end.
Fixpoint rfind_char (c : N) (s : bytes) : option nat :=
  match s with
  | [] => None
  | b :: s' => match rfind_char c s' with
               | Some n => Some (S n)
               | None => if N.eqb b c then Some O else None
               end
  end.

(** `str::starts_with` and `str::ends_with` *)
Fixpoint starts_with (p s : bytes) : bool :=
  match p, s with
  | [], _ => true
  | _ :: _, [] => false
  | a :: p', b :: s' => N.eqb a b && starts_with p' s'
  end.
Definition ends_with (p s : bytes) : bool := starts_with (rev p) (rev s).

(** `str::is_char_boundary` *)
Definition boundary (s : bytes) (i : nat) : bool :=
  Nat.eqb i 0 || match nth_error s i with
                 | Some b => negb ((128 <=? b) && (b <=? 191))
                 | None => Nat.eqb i (length s)
                 end.

(** `&s[a..b]`: panics outside of the string and inside of a character. *)
Definition slice (s : bytes) (a b : nat) : result bytes :=
  if Nat.leb a b && Nat.leb b (length s) && boundary s a && boundary s b
  then ROk (firstn (b - a) (skipn a s)) else RPanic.

(** ASCII case folding, `eq_ignore_ascii_case` *)
Definition lower (b : N) : N := if (65 <=? b) && (b <=? 90) then b + 32 else b.
Definition eq_ignore_case (a b : bytes) : bool := beq (map lower a) (map lower b).

(** The characters removed by `str::trim` (Unicode White_Space), as their UTF-8 encodings. *)
Definition white_chars : list bytes :=
  [[9]; [10]; [11]; [12]; [13]; [32]; [194; 133]; [194; 160]; [225; 154; 128];
   [226; 128; 128]; [226; 128; 129]; [226; 128; 130]; [226; 128; 131]; [226; 128; 132]; [226; 128; 133];
   [226; 128; 134]; [226; 128; 135]; [226; 128; 136]; [226; 128; 137]; [226; 128; 138]; [226; 128; 168];
   [226; 128; 169]; [226; 128; 175]; [226; 129; 159]; [227; 128; 128]].

(** Remove prefixes from the list repeatedly; the first argument bounds their number. *)
Fixpoint strip_fuel (fuel : nat) (chars : list bytes) (s : bytes) : bytes :=
  match fuel with
  | O => s
  | S f => match find (fun w => starts_with w s) chars with
           | Some w => strip_fuel f chars (skipn (length w) s)
           | None => s
           end
  end.
(** `trim_start` and `trim_end` *)
Definition trim_start (s : bytes) : bytes := strip_fuel (length s) white_chars s.
Definition trim_end (s : bytes) : bytes := rev (strip_fuel (length s) (map (@rev N) white_chars) (rev s)).
Definition trim (s : bytes) : bytes := trim_end (trim_start s).
