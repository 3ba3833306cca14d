(** HTTP and RTSP requests: the builder of src/net/http/generic.rs, `Request` of src/net/http/mod.rs and
    src/net/rtsp/mod.rs, and the probes of src/scanner/discovery.rs that use them.

    `str::to_lowercase` is the argument [lc], the version of the package is the argument [ver]. *)
From Coq Require Import String ZArith NArith List Bool.
From Verif.Model Require Import Bytes Text Utf8 Url Service Http.
Import ListNotations.
Local Open Scope N_scope.

(** src/net/http/mod.rs:85-113 *)
Inductive http_method := HOPTIONS | HHEAD | HGET | HPOST | HPUT | HDELETE | HTRACE | HCONNECT.
Definition http_name (m : http_method) : bytes :=
  match m with
  | HOPTIONS => lit "OPTIONS"%string
  | HHEAD => lit "HEAD"%string
  | HGET => lit "GET"%string
  | HPOST => lit "POST"%string
  | HPUT => lit "PUT"%string
  | HDELETE => lit "DELETE"%string
  | HTRACE => lit "TRACE"%string
  | HCONNECT => lit "CONNECT"%string
  end.
(** src/net/rtsp/mod.rs:83-118 *)
Inductive rtsp_method :=
| ROPTIONS | RDESCRIBE | RANNOUNCE | RSETUP | RPLAY | RPAUSE | RTEARDOWN | RGET_PARAMETER | RSET_PARAMETER | RREDIRECT | RRECORD.
Definition rtsp_name (m : rtsp_method) : bytes :=
  match m with
  | ROPTIONS => lit "OPTIONS"%string
  | RDESCRIBE => lit "DESCRIBE"%string
  | RANNOUNCE => lit "ANNOUNCE"%string
  | RSETUP => lit "SETUP"%string
  | RPLAY => lit "PLAY"%string
  | RPAUSE => lit "PAUSE"%string
  | RTEARDOWN => lit "TEARDOWN"%string
  | RGET_PARAMETER => lit "GET_PARAMETER"%string
  | RSET_PARAMETER => lit "SET_PARAMETER"%string
  | RREDIRECT => lit "REDIRECT"%string
  | RRECORD => lit "RECORD"%string
  end.

(** The generic request: src/net/http/generic.rs:260-331; `RequestBuilder` (332-394) holds one. *)
Record grequest := {
  g_protocol : bytes;
  g_version : bytes;
  g_method : bytes;
  g_path : bytes;
  g_fields : hfields;
  g_body : bytes
}.
(** src/net/http/generic.rs:339-344 with 270-281 and 312-320 *)
Definition g_new (protocol version method path : bytes) : grequest :=
  {| g_protocol := protocol; g_version := version; g_method := method; g_path := path; g_fields := fields_new; g_body := [] |}.
(** src/net/http/generic.rs:346-350 *)
Definition g_set_version (version : bytes) (g : grequest) : grequest :=
  {| g_protocol := g_protocol g; g_version := version; g_method := g_method g; g_path := g_path g; g_fields := g_fields g; g_body := g_body g |}.
Definition g_with_fields (h : hfields) (g : grequest) : grequest :=
  {| g_protocol := g_protocol g; g_version := g_version g; g_method := g_method g; g_path := g_path g; g_fields := h; g_body := g_body g |}.
(** src/net/http/generic.rs:377-387 *)
Definition g_set_body (body : bytes) (g : grequest) : grequest :=
  {| g_protocol := g_protocol g; g_version := g_version g; g_method := g_method g; g_path := g_path g; g_fields := g_fields g; g_body := body |}.

(** src/net/http/mod.rs:142-152 and src/net/rtsp/mod.rs:147-157: the times are nanoseconds *)
Record request := {
  rq_host : bytes;
  rq_port : N;
  rq_inner : grequest;
  rq_timeout : option Z;
  rq_max_line : N;
  rq_max_lines : N;
  rq_ignore : bool
}.

(** src/net/http/mod.rs:439-451 and src/net/rtsp/mod.rs:408-420 *)
Definition encode (g : grequest) : bytes :=
  request_text (g_method g) (g_path g) (g_protocol g) (g_version g) (g_fields g) ++ g_body g.

(** Requests *)
Section Request.
  Variable lc : bytes -> bytes.
  Variable ver : bytes.
  (** Bits of `usize` *)
  Variable bits : N.

  (** src/net/http/generic.rs:352-363 and 365-375 *)
  Definition g_set_field (name value : bytes) (g : grequest) : grequest :=
    g_with_fields (fields_set lc {| hf_name := name; hf_value := Some value |} (g_fields g)) g.
  Definition g_add_field (name value : bytes) (g : grequest) : grequest :=
    g_with_fields (fields_add lc {| hf_name := name; hf_value := Some value |} (g_fields g)) g.

  Definition user_agent : bytes := lit "ArrowClient/"%string ++ ver.

  (** src/net/http/mod.rs:115-140: the scheme and its port *)
  Definition http_scheme (s : bytes) : option N := if beq (lc s) (lit "http"%string) then Some 80 else None.
  (** src/net/rtsp/mod.rs:120-145 *)
  Definition rtsp_scheme (s : bytes) : option N := if beq (lc s) (lit "rtsp"%string) then Some 554 else None.

  Definition new_request (host : bytes) (port : N) (inner : grequest) (ignore : bool) : request :=
    {| rq_host := host; rq_port := port; rq_inner := inner; rq_timeout := Some 20000000000%Z; rq_max_line := 4096; rq_max_lines := 1024;
       rq_ignore := ignore |}.

  (** src/net/http/mod.rs:154-189 *)
  Definition http_request (m : http_method) (text : bytes) (ignore : bool) : result request :=
    rbind (url_parse text) (fun u =>
    rbind (url_scheme u) (fun s =>
    match http_scheme s with
    | None => RErr
    | Some default =>
        rbind (url_host u) (fun host =>
        let port := match u_port u with Some p => p | None => default end in
        rbind (url_path u) (fun path =>
        rbind (url_query u) (fun query =>
        let path := match query with Some q => path ++ [63] ++ q | None => path end in
        ROk (new_request host port
               (g_set_field (lit "User-Agent"%string) user_agent
                 (g_set_field (lit "Host"%string) host (g_new (lit "HTTP"%string) (lit "1.0"%string) (http_name m) path))) ignore))))
    end)).
  (** src/net/http/mod.rs:191-194 *)
  Definition http_get_header (text : bytes) : result request := http_request HGET text true.

  (** src/net/rtsp/mod.rs:159-188 *)
  Definition rtsp_request (m : rtsp_method) (text : bytes) (ignore : bool) : result request :=
    rbind (url_parse text) (fun u =>
    rbind (url_scheme u) (fun s =>
    match rtsp_scheme s with
    | None => RErr
    | Some default =>
        rbind (url_host u) (fun host =>
        let port := match u_port u with Some p => p | None => default end in
        ROk (new_request host port
               (g_set_field (lit "User-Agent"%string) user_agent
                 (g_set_field (lit "CSeq"%string) (print_dec 1) (g_new (lit "RTSP"%string) (lit "1.0"%string) (rtsp_name m) (u_text u)))) ignore))
    end)).
  Definition with_inner (f : grequest -> grequest) (r : request) : request :=
    {| rq_host := rq_host r; rq_port := rq_port r; rq_inner := f (rq_inner r); rq_timeout := rq_timeout r; rq_max_line := rq_max_line r;
       rq_max_lines := rq_max_lines r; rq_ignore := rq_ignore r |}.
  (** src/net/http/mod.rs:211-215 and src/net/rtsp/mod.rs:212-216 *)
  Definition with_timeout (t : option Z) (r : request) : request :=
    {| rq_host := rq_host r; rq_port := rq_port r; rq_inner := rq_inner r; rq_timeout := t; rq_max_line := rq_max_line r;
       rq_max_lines := rq_max_lines r; rq_ignore := rq_ignore r |}.
  (** src/net/rtsp/mod.rs:190-193 *)
  Definition rtsp_options (text : bytes) : result request := rtsp_request ROPTIONS text true.
  (** src/net/rtsp/mod.rs:195-209 *)
  Definition rtsp_describe (text : bytes) : result request :=
    rbind (rtsp_request RDESCRIBE text false) (fun r =>
    ROk (with_inner (g_set_field (lit "Accept"%string) (lit "application/sdp"%string)) r)).

  (** ** Sending

      What the network does with a request: the address to connect to and the bytes sent determine if there is a
      connection, the pieces of data that arrive before the timeout, and if the connection is closed behind them. *)
  Inductive answer := Refused | Answered (pieces : list bytes) (closed : bool).
  Definition network := bytes -> N -> bytes -> answer.

  (** The outcome of `send`: a response; an error (no connection, connection closed, malformed response, timeout); a
      panic; a future that is never ready. *)
  Inductive sent := SResponse (h : rheader) (body : bytes) | SError | SPanic | SNever.
  (** src/net/http/mod.rs:229-259 and src/net/rtsp/mod.rs:230-260, with the codec [codec] *)
  Definition send (codec : N -> N -> bool -> settings) (net : network) (r : request) : sent :=
    match net (rq_host r) (rq_port r) (encode (rq_inner r)) with
    | Refused => SError
    | Answered pieces closed =>
        match receive lc bits (codec (rq_max_line r) (rq_max_lines r) (rq_ignore r)) pieces closed with
        | Response h b => SResponse h b
        | Waiting => match rq_timeout r with Some _ => SError | None => SNever end
        | Closed => SError
        | Error => SError
        | Panic => SPanic
        end
    end.

  (** ** Probes

      `Display` of an IPv6 address is the argument [v6]. *)
  Variable v6 : N -> bytes.
  Definition v4_text (n : N) : bytes := join [46] (map print_dec (to_be 4 n)).
  Definition host_text (i : ip) : bytes := match i with V4 n => v4_text n | V6 n => [91] ++ v6 n ++ [93] end.
  (** `Display for SocketAddr` *)
  Definition saddr_text (a : saddr) : bytes := host_text (sa_ip a) ++ [58] ++ print_dec (sa_port a).

  (** src/scanner/discovery.rs:505-513 *)
  Definition http_probe (timeout : Z) (a : saddr) (path : bytes) : result request :=
    rbind (http_get_header (lit "http://"%string ++ saddr_text a ++ path)) (fun r => ROk (with_timeout (Some timeout) r)).
  (** src/scanner/discovery.rs:485-497 *)
  Definition rtsp_probe (timeout : Z) (a : saddr) : result request :=
    rbind (rtsp_options (lit "rtsp://"%string ++ saddr_text a ++ [47])) (fun r => ROk (with_timeout (Some timeout) r)).
  (** src/scanner/discovery.rs:682-696 *)
  Definition describe_probe (timeout : Z) (a : saddr) (path : bytes) : result request :=
    rbind (rtsp_describe (lit "rtsp://"%string ++ saddr_text a ++ path)) (fun r => ROk (with_timeout (Some timeout) r)).

  Definition sent_to (codec : N -> N -> bool -> settings) (net : network) (r : result request) : sent :=
    match r with ROk q => send codec net q | RErr => SError | RPanic => SPanic end.
  (** The responses as the network scanner gets them: Model/Discovery.v, [get_header] and [describe]. *)
  Definition probe_header (net : network) (timeout : Z) (a : saddr) (path : bytes) : sent :=
    sent_to (http lc bits) net (http_probe timeout a path).
  Definition probe_options (net : network) (timeout : Z) (a : saddr) : sent :=
    sent_to (rtsp lc bits) net (rtsp_probe timeout a).
  Definition probe_describe (net : network) (timeout : Z) (a : saddr) (path : bytes) : sent :=
    sent_to (rtsp lc bits) net (describe_probe timeout a path).
End Request.
