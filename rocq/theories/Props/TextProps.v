(** Properties of the text functions that the parsers are made of. *)
From Coq Require Import ZArith NArith List Bool Lia ZifyBool ZifyNat ZifyN.
From Verif.Model Require Import Bytes Utf8 Text Mac Control Http.
From Verif.Spec Require Import ControlSpec TextSpec NumeralSpec HttpSpec.
From Verif.Proofs Require Import TextProofs ControlProofs NumeralPf.
Import ListNotations.
Local Open Scope N_scope.

(** C143: a number is read exactly from a non-empty sequence of digits with an optional plus sign, as its positional
    value, and only up to the maximum of its type. *)
Theorem C143_number :
  forall (radix max : N) (s : bytes) (v : N), radix <= 36 ->
    (parse_uint radix max s = Some v <-> v <= max /\ (numeral radix s v \/ exists s', s = 43 :: s' /\ numeral radix s' v)).
Proof. exact number_iff. Qed.
Print Assumptions C143_number.

Example C143_number_case :
  numeral 16 [49; 102; 65] 506 /\ parse_uint 16 65535 [43; 49; 102; 65] = Some 506 /\ parse_uint 16 505 [49; 102; 65] = None /\ parse_uint 10 9999 [49; 102] = None.
Proof.
  split; [|split; [|split]; reflexivity]. exists [1; 15; 10]. split; [discriminate|]. split; [|reflexivity].
  constructor; [split; [lia|left; reflexivity]|]. constructor; [split; [lia|left; reflexivity]|]. constructor; [split; [lia|right; reflexivity]|constructor].
Qed.

(** C143: a number is written as its decimal digits without leading zeros, and a byte as two small hexadecimal digits. *)
Theorem C143_written :
  forall n : N,
    (numeral 10 (print_dec n) n /\ (forall r, print_dec n = 48 :: r -> r = [])) /\
    (n < 256 -> length (hex2 n) = 2%nat /\ Forall (fun c => In c small_digits) (hex2 n) /\ numeral 16 (hex2 n) n).
Proof. exact (fun n => conj (decimal n) (hexadecimal n)). Qed.
Print Assumptions C143_written.

Example C143_written_case : print_dec 1050 = [49; 48; 53; 48] /\ print_dec 0 = [48] /\ 175 < 256 /\ hex2 175 = [97; 102].
Proof. repeat split; reflexivity. Qed.

(** C143: the first and the last place of a character. *)
Theorem C143_place :
  forall (c : N) (s : bytes),
    (forall n, find_char c s = Some n <-> exists a b, s = a ++ c :: b /\ ~ In c a /\ n = length a) /\ (find_char c s = None <-> ~ In c s) /\
    (forall n, rfind_char c s = Some n <-> exists a b, s = a ++ c :: b /\ ~ In c b /\ n = length a) /\ (rfind_char c s = None <-> ~ In c s).
Proof. exact (fun c s => conj (found_iff c s) (conj (find_char_none c s) (conj (rfound_iff c s) (rfind_char_none c s)))). Qed.
Print Assumptions C143_place.

Example C143_place_case : find_char 58 [97; 58; 98; 58] = Some 1%nat /\ rfind_char 58 [97; 58; 98; 58] = Some 3%nat.
Proof. split; reflexivity. Qed.

(** C143: the pieces of a text are what is between the separators, and prefixes and suffixes are what they are. *)
Theorem C143_pieces :
  forall (c : N) (p s : bytes) (l : list bytes),
    (split_on c s = l <-> l <> [] /\ Forall (fun q => ~ In c q) l /\ s = between c l) /\
    (starts_with p s = true <-> exists r, s = p ++ r) /\ (ends_with p s = true <-> exists r, s = r ++ p).
Proof. exact (fun c p s l => conj (split_iff c s l) (conj (starts_with_iff p s) (ends_with_iff p s))). Qed.
Print Assumptions C143_pieces.

Example C143_pieces_case : split_on 44 [97; 44; 44; 98] = [[97]; []; [98]] /\ between 44 [[97]; []; [98]] = [97; 44; 44; 98].
Proof. split; reflexivity. Qed.

(** C143: texts are the same but for the case of ASCII letters exactly if all their characters are. *)
Theorem C143_ignore_case :
  forall a b : bytes, eq_ignore_case a b = true <-> Forall2 same_letter a b.
Proof. exact ignore_case_iff. Qed.
Print Assumptions C143_ignore_case.

Example C143_ignore_case_case : eq_ignore_case [65; 90; 64; 195] [97; 122; 64; 195] = true /\ eq_ignore_case [64] [96] = false.
Proof. split; reflexivity. Qed.

(** C143: a text is valid exactly if it is the encoding of a sequence of Unicode scalar values. *)
Theorem C143_valid : forall b : bytes, utf8_valid b = true <-> utf8_text b.
Proof. exact utf8_text_iff. Qed.
Print Assumptions C143_valid.

Example C143_valid_case : utf8_valid [97; 195; 169; 240; 159; 142; 165] = true /\ utf8_valid [237; 160; 128] = false /\ utf8_valid [192; 128] = false.
Proof. repeat split; reflexivity. Qed.

(** C143: numbers in network byte order. *)
Theorem C143_order :
  (forall l : bytes, of_be l = positional 256 l) /\
  (forall (k : nat) (n : N), length (to_be k n) = k /\ (n < 256 ^ N.of_nat k -> positional 256 (to_be k n) = n)).
Proof. exact (conj of_be_positional to_be_positional). Qed.
Print Assumptions C143_order.

Example C143_order_case : to_be 4 16909060 = [1; 2; 3; 4] /\ of_be [1; 2; 3; 4] = 16909060.
Proof. split; reflexivity. Qed.

(** C143: a MAC address is read exactly from six hexadecimal octets with colons between them. *)
Theorem C143_mac :
  forall (s : bytes) (m : N),
    mac_parse s = Some m <->
    exists ps os, length ps = 6%nat /\ s = between 58 ps /\ m = positional 256 os /\
      Forall2 (fun p o => o < 256 /\ (numeral 16 p o \/ exists q, p = 43 :: q /\ numeral 16 q o)) ps os.
Proof. exact mac_iff. Qed.
Print Assumptions C143_mac.

Example C143_mac_case :
  mac_parse [48; 48; 58; 49; 49; 58; 50; 58; 102; 70; 58; 48; 58; 49] = Some 73064710145 /\
  mac_parse [48; 48; 58; 49; 49; 58; 50; 58; 102; 70; 58; 48] = None /\ 73064710145 = positional 256 [0; 17; 2; 255; 0; 1].
Proof. repeat split; vm_compute; reflexivity. Qed.

(** C143: a header line without a colon is a name without a value, and a line continues the one before exactly if it
    starts with white space. *)
Theorem C143_header_line :
  (forall l : bytes, ~ In 58 l -> field_parse l = {| hf_name := trim l; hf_value := None |}) /\
  (forall cps : list N, Forall scalar cps -> (continuation (utf8 cps) = true <-> exists c r, cps = c :: r /\ space c)).
Proof. exact (conj bare_field continued). Qed.
Print Assumptions C143_header_line.

Example C143_header_line_case :
  continuation [194; 160; 97] = true /\ utf8 [160; 97] = [194; 160; 97] /\ continuation [97; 32] = false /\ continuation [] = false /\
  field_parse [32; 97; 32] = {| hf_name := [97]; hf_value := None |}.
Proof. repeat split; reflexivity. Qed.
