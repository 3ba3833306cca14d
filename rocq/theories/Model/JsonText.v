(** The text of JSON documents as the client writes them, and the extended information of the client.

    The writer is that of the `json` crate (`JsonValue::write` and `dump`, used in src/storage.rs:454, 466 and src/context.rs:345):
    compact text, fields in the order of insertion, control characters, quotes and backslashes escaped. It is not part of
    /repo; numbers are integers, as the client writes no others. *)
From Coq Require Import String NArith ZArith List Bool.
From Verif.Model Require Import Bytes Text TableJson.
Import ListNotations.
Local Open Scope N_scope.

Definition esc_byte (c : N) : bytes :=
  if c =? 34 then [92; 34] else if c =? 92 then [92; 92] else if c =? 8 then [92; 98] else if c =? 9 then [92; 116]
  else if c =? 10 then [92; 110] else if c =? 12 then [92; 102] else if c =? 13 then [92; 114]
  else if c <? 32 then [92; 117; 48; 48] ++ hex2 c else [c].
Definition jstring (s : bytes) : bytes := 34 :: flat_map esc_byte s ++ [34].
Definition jnumber (z : Z) : bytes := if (z <? 0)%Z then 45 :: print_dec (Z.abs_N z) else print_dec (Z.abs_N z).

Fixpoint jdump (j : json) : bytes :=
  match j with
  | JNull => lit "null"%string
  | JBool true => lit "true"%string
  | JBool false => lit "false"%string
  | JNum z => jnumber z
  | JStr s => jstring s
  | JArr l => 91 :: join [44] (map jdump l) ++ [93]
  | JObj l => 123 :: join [44] (map (fun p => jstring (fst p) ++ 58 :: jdump (snd p)) l) ++ [125]
  end.

(** src/config.rs:1125-1140, `get_extended_info`; [ver] is `CARGO_PKG_VERSION` *)
Definition opt_str (o : option bytes) : json := match o with Some s => JStr s | None => JNull end.
Definition extended_info (ver : bytes) (category type vendor : option bytes) : json :=
  JObj [ (lit "client"%string, JObj [ (lit "id"%string, JStr (lit "arrow-client"%string)); (lit "version"%string, JStr ver);
                                      (lit "vendor"%string, JStr (lit "angelcam"%string)) ]);
         (lit "device"%string, JObj [ (lit "category"%string, opt_str category); (lit "type"%string, opt_str type);
                                      (lit "vendor"%string, opt_str vendor) ]) ].

(** src/config.rs:820-832 and src/storage.rs:459-469: the identity file *)
Definition identity_doc (uprint : N -> bytes) (uuid : N) : json := JObj [(lit "uuid"%string, JStr (uprint uuid))].
