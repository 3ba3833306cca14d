(** The URL parser. *)
From Coq Require Import NArith List Bool.
From Verif.Model Require Import Bytes Text.
Import ListNotations.
Local Open Scope N_scope.

(** src/net/url.rs:51-64 *)
Record url := {
  u_text : bytes;
  u_hier : nat;
  u_netloc : nat;
  u_user : option nat;
  u_pass : option nat;
  u_portpos : option nat;
  u_port : option N;
  u_path : option nat;
  u_query : option nat;
  u_fragment : option nat
}.

(** Sequencing of steps that may fail or panic. *)
Definition rbind {A B : Type} (r : result A) (f : A -> result B) : result B :=
  match r with ROk a => f a | RErr => RErr | RPanic => RPanic end.

(** src/net/url.rs:126-135, `process_user_info`: user and password positions *)
Definition process_user_info (s : bytes) (start stop : nat) : result (option nat * option nat) :=
  rbind (slice s start stop) (fun uinfo =>
    ROk (Some start, option_map (fun d => (start + d + 1)%nat) (find_char 58 uinfo))).

(** src/net/url.rs:100-124, `process_authority`: user, password, netloc, port position and port *)
Definition process_authority (s : bytes) (start stop : nat)
  : result (option nat * option nat * nat * option nat * option N) :=
  rbind (slice s start stop) (fun auth =>
  rbind (match rfind_char 64 auth with
         | Some d => rbind (process_user_info s start (start + d)) (fun up => ROk (up, (start + d + 1)%nat))
         | None => ROk ((None, None), start)
         end) (fun '((user, pass), netloc) =>
  rbind (slice s netloc stop) (fun nl =>
    if ends_with [93] nl then ROk (user, pass, netloc, None, None)
    else match rfind_char 58 nl with
         | None => ROk (user, pass, netloc, None, None)
         | Some d =>
             rbind (slice nl (d + 1) (length nl)) (fun ptext =>
               match parse_uint 10 65535 ptext with
               | Some port => ROk (user, pass, netloc, Some (netloc + (d + 1))%nat, Some port)
               | None => RErr
               end)
         end))).

(** src/net/url.rs:137-154, `process_path`: fragment and query positions *)
Definition process_path (s : bytes) (start : nat) : result (option nat * option nat) :=
  rbind (slice s start (length s)) (fun path =>
    let fragment := option_map (fun d => (start + d + 1)%nat) (rfind_char 35 path) in
    let stop := match fragment with Some f => (f - 1)%nat | None => length s end in
    rbind (slice s start stop) (fun path' =>
      ROk (fragment, option_map (fun d => (start + d + 1)%nat) (rfind_char 63 path')))).

(** src/net/url.rs:67-98 and 242-263, `from_str` with `init` and `process_hierarchy` *)
Definition url_parse (s : bytes) : result url :=
  match find_char 58 s with
  | None => RErr
  | Some delim =>
      let hier := (delim + 1)%nat in
      rbind (slice s hier (length s)) (fun rest =>
        if starts_with [47; 47] rest then
          let authority := (hier + 2)%nat in
          rbind (slice s authority (length s)) (fun rest' =>
            match find_char 47 rest' with
            | Some pos =>
                let path := (authority + pos)%nat in
                rbind (process_authority s authority path) (fun '(user, pass, netloc, portpos, port) =>
                rbind (process_path s path) (fun '(fragment, query) =>
                  ROk {| u_text := s; u_hier := hier; u_netloc := netloc; u_user := user; u_pass := pass;
                         u_portpos := portpos; u_port := port; u_path := Some path; u_query := query;
                         u_fragment := fragment |}))
            | None =>
                rbind (process_authority s authority (length s)) (fun '(user, pass, netloc, portpos, port) =>
                  ROk {| u_text := s; u_hier := hier; u_netloc := netloc; u_user := user; u_pass := pass;
                         u_portpos := portpos; u_port := port; u_path := None; u_query := None;
                         u_fragment := None |})
            end)
        else RErr)
  end.

(** `map` over an optional position *)
Definition oslice (o : option nat) (f : nat -> result bytes) : result (option bytes) :=
  match o with
  | None => ROk None
  | Some p => rbind (f p) (fun b => ROk (Some b))
  end.

(** src/net/url.rs:156-159 *)
Definition url_scheme (u : url) : result bytes := slice (u_text u) 0 (u_hier u - 1).
(** src/net/url.rs:161-172 *)
Definition url_username (u : url) : result (option bytes) :=
  oslice (u_user u) (fun p => match u_pass u with
                              | Some q => slice (u_text u) p (q - 1)
                              | None => slice (u_text u) p (u_netloc u - 1)
                              end).
(** src/net/url.rs:174-178 *)
Definition url_password (u : url) : result (option bytes) :=
  oslice (u_pass u) (fun p => slice (u_text u) p (u_netloc u - 1)).
(** src/net/url.rs:180-189 *)
Definition url_host (u : url) : result bytes :=
  match u_portpos u, u_path u with
  | Some p, _ => slice (u_text u) (u_netloc u) (p - 1)
  | None, Some p => slice (u_text u) (u_netloc u) p
  | None, None => slice (u_text u) (u_netloc u) (length (u_text u))
  end.
(** src/net/url.rs:196-209 *)
Definition url_path (u : url) : result bytes :=
  match u_path u with
  | Some p =>
      match u_query u, u_fragment u with
      | Some q, _ => slice (u_text u) p (q - 1)
      | None, Some f => slice (u_text u) p (f - 1)
      | None, None => slice (u_text u) p (length (u_text u))
      end
  | None => ROk [47]
  end.
(** src/net/url.rs:211-222 *)
Definition url_query (u : url) : result (option bytes) :=
  oslice (u_query u) (fun q => match u_fragment u with
                               | Some f => slice (u_text u) q (f - 1)
                               | None => slice (u_text u) q (length (u_text u))
                               end).
(** src/net/url.rs:224-227 *)
Definition url_fragment (u : url) : result (option bytes) :=
  oslice (u_fragment u) (fun f => slice (u_text u) f (length (u_text u))).
