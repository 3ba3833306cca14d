(** The command line. *)
From Coq Require Import NArith List Bool String.
From Verif.Model Require Import Bytes Service Text Url TableJson.
Import ListNotations.
Local Open Scope N_scope.
Local Open Scope list_scope.

(** src/config.rs:326-347, `LoggerType` (target other than Windows) *)
Inductive logger_type := LSyslog | LStderr | LStderrPretty | LFile.

(** src/config.rs:350-375, `ConfigParser`. Paths are byte strings. *)
Record cparser := {
  cp_mac : option N;
  cp_addr : bytes;
  cp_ca : list bytes;
  cp_services : list service;
  cp_logger : logger_type;
  cp_config : bytes;
  cp_skel : bytes;
  cp_identity : option bytes;
  cp_state : bytes;
  cp_rtsp : bytes;
  cp_mjpeg : bytes;
  cp_log : bytes;
  cp_flash : bool;
  cp_disc : bool;
  cp_white : list bytes;
  cp_verbose : bool;
  cp_diag : bool;
  cp_gateway : bool;
  cp_logsize : N;
  cp_logrot : N;
  cp_lock : option bytes;
  cp_cat : option bytes;
  cp_type : option bytes;
  cp_vendor : option bytes
}.

(** Field updates. *)
Definition set_mac (x : option N) (c : cparser) : cparser :=
  {| cp_mac := x; cp_addr := cp_addr c; cp_ca := cp_ca c; cp_services := cp_services c; cp_logger := cp_logger
     c; cp_config := cp_config c; cp_skel := cp_skel c; cp_identity := cp_identity c; cp_state := cp_state c;
     cp_rtsp := cp_rtsp c; cp_mjpeg := cp_mjpeg c; cp_log := cp_log c; cp_flash := cp_flash c; cp_disc :=
     cp_disc c; cp_white := cp_white c; cp_verbose := cp_verbose c; cp_diag := cp_diag c; cp_gateway :=
     cp_gateway c; cp_logsize := cp_logsize c; cp_logrot := cp_logrot c; cp_lock := cp_lock c; cp_cat := cp_cat
     c; cp_type := cp_type c; cp_vendor := cp_vendor c |}.
Definition set_addr (x : bytes) (c : cparser) : cparser :=
  {| cp_mac := cp_mac c; cp_addr := x; cp_ca := cp_ca c; cp_services := cp_services c; cp_logger := cp_logger c;
     cp_config := cp_config c; cp_skel := cp_skel c; cp_identity := cp_identity c; cp_state := cp_state c;
     cp_rtsp := cp_rtsp c; cp_mjpeg := cp_mjpeg c; cp_log := cp_log c; cp_flash := cp_flash c; cp_disc :=
     cp_disc c; cp_white := cp_white c; cp_verbose := cp_verbose c; cp_diag := cp_diag c; cp_gateway :=
     cp_gateway c; cp_logsize := cp_logsize c; cp_logrot := cp_logrot c; cp_lock := cp_lock c; cp_cat := cp_cat
     c; cp_type := cp_type c; cp_vendor := cp_vendor c |}.
Definition set_ca (x : list bytes) (c : cparser) : cparser :=
  {| cp_mac := cp_mac c; cp_addr := cp_addr c; cp_ca := x; cp_services := cp_services c; cp_logger := cp_logger
     c; cp_config := cp_config c; cp_skel := cp_skel c; cp_identity := cp_identity c; cp_state := cp_state c;
     cp_rtsp := cp_rtsp c; cp_mjpeg := cp_mjpeg c; cp_log := cp_log c; cp_flash := cp_flash c; cp_disc :=
     cp_disc c; cp_white := cp_white c; cp_verbose := cp_verbose c; cp_diag := cp_diag c; cp_gateway :=
     cp_gateway c; cp_logsize := cp_logsize c; cp_logrot := cp_logrot c; cp_lock := cp_lock c; cp_cat := cp_cat
     c; cp_type := cp_type c; cp_vendor := cp_vendor c |}.
Definition set_services (x : list service) (c : cparser) : cparser :=
  {| cp_mac := cp_mac c; cp_addr := cp_addr c; cp_ca := cp_ca c; cp_services := x; cp_logger := cp_logger c;
     cp_config := cp_config c; cp_skel := cp_skel c; cp_identity := cp_identity c; cp_state := cp_state c;
     cp_rtsp := cp_rtsp c; cp_mjpeg := cp_mjpeg c; cp_log := cp_log c; cp_flash := cp_flash c; cp_disc :=
     cp_disc c; cp_white := cp_white c; cp_verbose := cp_verbose c; cp_diag := cp_diag c; cp_gateway :=
     cp_gateway c; cp_logsize := cp_logsize c; cp_logrot := cp_logrot c; cp_lock := cp_lock c; cp_cat := cp_cat
     c; cp_type := cp_type c; cp_vendor := cp_vendor c |}.
Definition set_logger (x : logger_type) (c : cparser) : cparser :=
  {| cp_mac := cp_mac c; cp_addr := cp_addr c; cp_ca := cp_ca c; cp_services := cp_services c; cp_logger := x;
     cp_config := cp_config c; cp_skel := cp_skel c; cp_identity := cp_identity c; cp_state := cp_state c;
     cp_rtsp := cp_rtsp c; cp_mjpeg := cp_mjpeg c; cp_log := cp_log c; cp_flash := cp_flash c; cp_disc :=
     cp_disc c; cp_white := cp_white c; cp_verbose := cp_verbose c; cp_diag := cp_diag c; cp_gateway :=
     cp_gateway c; cp_logsize := cp_logsize c; cp_logrot := cp_logrot c; cp_lock := cp_lock c; cp_cat := cp_cat
     c; cp_type := cp_type c; cp_vendor := cp_vendor c |}.
Definition set_config (x : bytes) (c : cparser) : cparser :=
  {| cp_mac := cp_mac c; cp_addr := cp_addr c; cp_ca := cp_ca c; cp_services := cp_services c; cp_logger :=
     cp_logger c; cp_config := x; cp_skel := cp_skel c; cp_identity := cp_identity c; cp_state := cp_state c;
     cp_rtsp := cp_rtsp c; cp_mjpeg := cp_mjpeg c; cp_log := cp_log c; cp_flash := cp_flash c; cp_disc :=
     cp_disc c; cp_white := cp_white c; cp_verbose := cp_verbose c; cp_diag := cp_diag c; cp_gateway :=
     cp_gateway c; cp_logsize := cp_logsize c; cp_logrot := cp_logrot c; cp_lock := cp_lock c; cp_cat := cp_cat
     c; cp_type := cp_type c; cp_vendor := cp_vendor c |}.
Definition set_skel (x : bytes) (c : cparser) : cparser :=
  {| cp_mac := cp_mac c; cp_addr := cp_addr c; cp_ca := cp_ca c; cp_services := cp_services c; cp_logger :=
     cp_logger c; cp_config := cp_config c; cp_skel := x; cp_identity := cp_identity c; cp_state := cp_state c;
     cp_rtsp := cp_rtsp c; cp_mjpeg := cp_mjpeg c; cp_log := cp_log c; cp_flash := cp_flash c; cp_disc :=
     cp_disc c; cp_white := cp_white c; cp_verbose := cp_verbose c; cp_diag := cp_diag c; cp_gateway :=
     cp_gateway c; cp_logsize := cp_logsize c; cp_logrot := cp_logrot c; cp_lock := cp_lock c; cp_cat := cp_cat
     c; cp_type := cp_type c; cp_vendor := cp_vendor c |}.
Definition set_identity (x : option bytes) (c : cparser) : cparser :=
  {| cp_mac := cp_mac c; cp_addr := cp_addr c; cp_ca := cp_ca c; cp_services := cp_services c; cp_logger :=
     cp_logger c; cp_config := cp_config c; cp_skel := cp_skel c; cp_identity := x; cp_state := cp_state c;
     cp_rtsp := cp_rtsp c; cp_mjpeg := cp_mjpeg c; cp_log := cp_log c; cp_flash := cp_flash c; cp_disc :=
     cp_disc c; cp_white := cp_white c; cp_verbose := cp_verbose c; cp_diag := cp_diag c; cp_gateway :=
     cp_gateway c; cp_logsize := cp_logsize c; cp_logrot := cp_logrot c; cp_lock := cp_lock c; cp_cat := cp_cat
     c; cp_type := cp_type c; cp_vendor := cp_vendor c |}.
Definition set_state (x : bytes) (c : cparser) : cparser :=
  {| cp_mac := cp_mac c; cp_addr := cp_addr c; cp_ca := cp_ca c; cp_services := cp_services c; cp_logger :=
     cp_logger c; cp_config := cp_config c; cp_skel := cp_skel c; cp_identity := cp_identity c; cp_state := x;
     cp_rtsp := cp_rtsp c; cp_mjpeg := cp_mjpeg c; cp_log := cp_log c; cp_flash := cp_flash c; cp_disc :=
     cp_disc c; cp_white := cp_white c; cp_verbose := cp_verbose c; cp_diag := cp_diag c; cp_gateway :=
     cp_gateway c; cp_logsize := cp_logsize c; cp_logrot := cp_logrot c; cp_lock := cp_lock c; cp_cat := cp_cat
     c; cp_type := cp_type c; cp_vendor := cp_vendor c |}.
Definition set_rtsp (x : bytes) (c : cparser) : cparser :=
  {| cp_mac := cp_mac c; cp_addr := cp_addr c; cp_ca := cp_ca c; cp_services := cp_services c; cp_logger :=
     cp_logger c; cp_config := cp_config c; cp_skel := cp_skel c; cp_identity := cp_identity c; cp_state :=
     cp_state c; cp_rtsp := x; cp_mjpeg := cp_mjpeg c; cp_log := cp_log c; cp_flash := cp_flash c; cp_disc :=
     cp_disc c; cp_white := cp_white c; cp_verbose := cp_verbose c; cp_diag := cp_diag c; cp_gateway :=
     cp_gateway c; cp_logsize := cp_logsize c; cp_logrot := cp_logrot c; cp_lock := cp_lock c; cp_cat := cp_cat
     c; cp_type := cp_type c; cp_vendor := cp_vendor c |}.
Definition set_mjpeg (x : bytes) (c : cparser) : cparser :=
  {| cp_mac := cp_mac c; cp_addr := cp_addr c; cp_ca := cp_ca c; cp_services := cp_services c; cp_logger :=
     cp_logger c; cp_config := cp_config c; cp_skel := cp_skel c; cp_identity := cp_identity c; cp_state :=
     cp_state c; cp_rtsp := cp_rtsp c; cp_mjpeg := x; cp_log := cp_log c; cp_flash := cp_flash c; cp_disc :=
     cp_disc c; cp_white := cp_white c; cp_verbose := cp_verbose c; cp_diag := cp_diag c; cp_gateway :=
     cp_gateway c; cp_logsize := cp_logsize c; cp_logrot := cp_logrot c; cp_lock := cp_lock c; cp_cat := cp_cat
     c; cp_type := cp_type c; cp_vendor := cp_vendor c |}.
Definition set_log (x : bytes) (c : cparser) : cparser :=
  {| cp_mac := cp_mac c; cp_addr := cp_addr c; cp_ca := cp_ca c; cp_services := cp_services c; cp_logger :=
     cp_logger c; cp_config := cp_config c; cp_skel := cp_skel c; cp_identity := cp_identity c; cp_state :=
     cp_state c; cp_rtsp := cp_rtsp c; cp_mjpeg := cp_mjpeg c; cp_log := x; cp_flash := cp_flash c; cp_disc :=
     cp_disc c; cp_white := cp_white c; cp_verbose := cp_verbose c; cp_diag := cp_diag c; cp_gateway :=
     cp_gateway c; cp_logsize := cp_logsize c; cp_logrot := cp_logrot c; cp_lock := cp_lock c; cp_cat := cp_cat
     c; cp_type := cp_type c; cp_vendor := cp_vendor c |}.
Definition set_flash (x : bool) (c : cparser) : cparser :=
  {| cp_mac := cp_mac c; cp_addr := cp_addr c; cp_ca := cp_ca c; cp_services := cp_services c; cp_logger :=
     cp_logger c; cp_config := cp_config c; cp_skel := cp_skel c; cp_identity := cp_identity c; cp_state :=
     cp_state c; cp_rtsp := cp_rtsp c; cp_mjpeg := cp_mjpeg c; cp_log := cp_log c; cp_flash := x; cp_disc :=
     cp_disc c; cp_white := cp_white c; cp_verbose := cp_verbose c; cp_diag := cp_diag c; cp_gateway :=
     cp_gateway c; cp_logsize := cp_logsize c; cp_logrot := cp_logrot c; cp_lock := cp_lock c; cp_cat := cp_cat
     c; cp_type := cp_type c; cp_vendor := cp_vendor c |}.
Definition set_disc (x : bool) (c : cparser) : cparser :=
  {| cp_mac := cp_mac c; cp_addr := cp_addr c; cp_ca := cp_ca c; cp_services := cp_services c; cp_logger :=
     cp_logger c; cp_config := cp_config c; cp_skel := cp_skel c; cp_identity := cp_identity c; cp_state :=
     cp_state c; cp_rtsp := cp_rtsp c; cp_mjpeg := cp_mjpeg c; cp_log := cp_log c; cp_flash := cp_flash c;
     cp_disc := x; cp_white := cp_white c; cp_verbose := cp_verbose c; cp_diag := cp_diag c; cp_gateway :=
     cp_gateway c; cp_logsize := cp_logsize c; cp_logrot := cp_logrot c; cp_lock := cp_lock c; cp_cat := cp_cat
     c; cp_type := cp_type c; cp_vendor := cp_vendor c |}.
Definition set_white (x : list bytes) (c : cparser) : cparser :=
  {| cp_mac := cp_mac c; cp_addr := cp_addr c; cp_ca := cp_ca c; cp_services := cp_services c; cp_logger :=
     cp_logger c; cp_config := cp_config c; cp_skel := cp_skel c; cp_identity := cp_identity c; cp_state :=
     cp_state c; cp_rtsp := cp_rtsp c; cp_mjpeg := cp_mjpeg c; cp_log := cp_log c; cp_flash := cp_flash c;
     cp_disc := cp_disc c; cp_white := x; cp_verbose := cp_verbose c; cp_diag := cp_diag c; cp_gateway :=
     cp_gateway c; cp_logsize := cp_logsize c; cp_logrot := cp_logrot c; cp_lock := cp_lock c; cp_cat := cp_cat
     c; cp_type := cp_type c; cp_vendor := cp_vendor c |}.
Definition set_verbose (x : bool) (c : cparser) : cparser :=
  {| cp_mac := cp_mac c; cp_addr := cp_addr c; cp_ca := cp_ca c; cp_services := cp_services c; cp_logger :=
     cp_logger c; cp_config := cp_config c; cp_skel := cp_skel c; cp_identity := cp_identity c; cp_state :=
     cp_state c; cp_rtsp := cp_rtsp c; cp_mjpeg := cp_mjpeg c; cp_log := cp_log c; cp_flash := cp_flash c;
     cp_disc := cp_disc c; cp_white := cp_white c; cp_verbose := x; cp_diag := cp_diag c; cp_gateway :=
     cp_gateway c; cp_logsize := cp_logsize c; cp_logrot := cp_logrot c; cp_lock := cp_lock c; cp_cat := cp_cat
     c; cp_type := cp_type c; cp_vendor := cp_vendor c |}.
Definition set_diag (x : bool) (c : cparser) : cparser :=
  {| cp_mac := cp_mac c; cp_addr := cp_addr c; cp_ca := cp_ca c; cp_services := cp_services c; cp_logger :=
     cp_logger c; cp_config := cp_config c; cp_skel := cp_skel c; cp_identity := cp_identity c; cp_state :=
     cp_state c; cp_rtsp := cp_rtsp c; cp_mjpeg := cp_mjpeg c; cp_log := cp_log c; cp_flash := cp_flash c;
     cp_disc := cp_disc c; cp_white := cp_white c; cp_verbose := cp_verbose c; cp_diag := x; cp_gateway :=
     cp_gateway c; cp_logsize := cp_logsize c; cp_logrot := cp_logrot c; cp_lock := cp_lock c; cp_cat := cp_cat
     c; cp_type := cp_type c; cp_vendor := cp_vendor c |}.
Definition set_gateway (x : bool) (c : cparser) : cparser :=
  {| cp_mac := cp_mac c; cp_addr := cp_addr c; cp_ca := cp_ca c; cp_services := cp_services c; cp_logger :=
     cp_logger c; cp_config := cp_config c; cp_skel := cp_skel c; cp_identity := cp_identity c; cp_state :=
     cp_state c; cp_rtsp := cp_rtsp c; cp_mjpeg := cp_mjpeg c; cp_log := cp_log c; cp_flash := cp_flash c;
     cp_disc := cp_disc c; cp_white := cp_white c; cp_verbose := cp_verbose c; cp_diag := cp_diag c; cp_gateway
     := x; cp_logsize := cp_logsize c; cp_logrot := cp_logrot c; cp_lock := cp_lock c; cp_cat := cp_cat c;
     cp_type := cp_type c; cp_vendor := cp_vendor c |}.
Definition set_logsize (x : N) (c : cparser) : cparser :=
  {| cp_mac := cp_mac c; cp_addr := cp_addr c; cp_ca := cp_ca c; cp_services := cp_services c; cp_logger :=
     cp_logger c; cp_config := cp_config c; cp_skel := cp_skel c; cp_identity := cp_identity c; cp_state :=
     cp_state c; cp_rtsp := cp_rtsp c; cp_mjpeg := cp_mjpeg c; cp_log := cp_log c; cp_flash := cp_flash c;
     cp_disc := cp_disc c; cp_white := cp_white c; cp_verbose := cp_verbose c; cp_diag := cp_diag c; cp_gateway
     := cp_gateway c; cp_logsize := x; cp_logrot := cp_logrot c; cp_lock := cp_lock c; cp_cat := cp_cat c;
     cp_type := cp_type c; cp_vendor := cp_vendor c |}.
Definition set_logrot (x : N) (c : cparser) : cparser :=
  {| cp_mac := cp_mac c; cp_addr := cp_addr c; cp_ca := cp_ca c; cp_services := cp_services c; cp_logger :=
     cp_logger c; cp_config := cp_config c; cp_skel := cp_skel c; cp_identity := cp_identity c; cp_state :=
     cp_state c; cp_rtsp := cp_rtsp c; cp_mjpeg := cp_mjpeg c; cp_log := cp_log c; cp_flash := cp_flash c;
     cp_disc := cp_disc c; cp_white := cp_white c; cp_verbose := cp_verbose c; cp_diag := cp_diag c; cp_gateway
     := cp_gateway c; cp_logsize := cp_logsize c; cp_logrot := x; cp_lock := cp_lock c; cp_cat := cp_cat c;
     cp_type := cp_type c; cp_vendor := cp_vendor c |}.
Definition set_lock (x : option bytes) (c : cparser) : cparser :=
  {| cp_mac := cp_mac c; cp_addr := cp_addr c; cp_ca := cp_ca c; cp_services := cp_services c; cp_logger :=
     cp_logger c; cp_config := cp_config c; cp_skel := cp_skel c; cp_identity := cp_identity c; cp_state :=
     cp_state c; cp_rtsp := cp_rtsp c; cp_mjpeg := cp_mjpeg c; cp_log := cp_log c; cp_flash := cp_flash c;
     cp_disc := cp_disc c; cp_white := cp_white c; cp_verbose := cp_verbose c; cp_diag := cp_diag c; cp_gateway
     := cp_gateway c; cp_logsize := cp_logsize c; cp_logrot := cp_logrot c; cp_lock := x; cp_cat := cp_cat c;
     cp_type := cp_type c; cp_vendor := cp_vendor c |}.
Definition set_cat (x : option bytes) (c : cparser) : cparser :=
  {| cp_mac := cp_mac c; cp_addr := cp_addr c; cp_ca := cp_ca c; cp_services := cp_services c; cp_logger :=
     cp_logger c; cp_config := cp_config c; cp_skel := cp_skel c; cp_identity := cp_identity c; cp_state :=
     cp_state c; cp_rtsp := cp_rtsp c; cp_mjpeg := cp_mjpeg c; cp_log := cp_log c; cp_flash := cp_flash c;
     cp_disc := cp_disc c; cp_white := cp_white c; cp_verbose := cp_verbose c; cp_diag := cp_diag c; cp_gateway
     := cp_gateway c; cp_logsize := cp_logsize c; cp_logrot := cp_logrot c; cp_lock := cp_lock c; cp_cat := x;
     cp_type := cp_type c; cp_vendor := cp_vendor c |}.
Definition set_type (x : option bytes) (c : cparser) : cparser :=
  {| cp_mac := cp_mac c; cp_addr := cp_addr c; cp_ca := cp_ca c; cp_services := cp_services c; cp_logger :=
     cp_logger c; cp_config := cp_config c; cp_skel := cp_skel c; cp_identity := cp_identity c; cp_state :=
     cp_state c; cp_rtsp := cp_rtsp c; cp_mjpeg := cp_mjpeg c; cp_log := cp_log c; cp_flash := cp_flash c;
     cp_disc := cp_disc c; cp_white := cp_white c; cp_verbose := cp_verbose c; cp_diag := cp_diag c; cp_gateway
     := cp_gateway c; cp_logsize := cp_logsize c; cp_logrot := cp_logrot c; cp_lock := cp_lock c; cp_cat :=
     cp_cat c; cp_type := x; cp_vendor := cp_vendor c |}.
Definition set_vendor (x : option bytes) (c : cparser) : cparser :=
  {| cp_mac := cp_mac c; cp_addr := cp_addr c; cp_ca := cp_ca c; cp_services := cp_services c; cp_logger :=
     cp_logger c; cp_config := cp_config c; cp_skel := cp_skel c; cp_identity := cp_identity c; cp_state :=
     cp_state c; cp_rtsp := cp_rtsp c; cp_mjpeg := cp_mjpeg c; cp_log := cp_log c; cp_flash := cp_flash c;
     cp_disc := cp_disc c; cp_white := cp_white c; cp_verbose := cp_verbose c; cp_diag := cp_diag c; cp_gateway
     := cp_gateway c; cp_logsize := cp_logsize c; cp_logrot := cp_logrot c; cp_lock := cp_lock c; cp_cat :=
     cp_cat c; cp_type := cp_type c; cp_vendor := x |}.

(** src/config.rs:378-406, `ConfigParser::new`; the constants are in src/config.rs:64-82 *)
Definition cparser_new : cparser :=
  {| cp_mac := None; cp_addr := []; cp_ca := []; cp_services := []; cp_logger := LSyslog;
     cp_config := lit "/etc/arrow/config.json"; cp_skel := lit "/etc/arrow/config-skel.json"; cp_identity := None;
     cp_state := lit "/var/lib/arrow/state"; cp_rtsp := lit "/etc/arrow/rtsp-paths";
     cp_mjpeg := lit "/etc/arrow/mjpeg-paths"; cp_log := []; cp_flash := false; cp_disc := false; cp_white := [];
     cp_verbose := false; cp_diag := false; cp_gateway := true; cp_logsize := 10240; cp_logrot := 1;
     cp_lock := None; cp_cat := None; cp_type := None; cp_vendor := None |}.

(** Outcome of the command line: a value, an error, a panic, or the process exits (help and version). *)
Inductive pres (A : Type) := POk (a : A) | PErr | PPanic | PExit.
Arguments POk {A} a.
Arguments PErr {A}.
Arguments PPanic {A}.
Arguments PExit {A}.
Definition of_result {A : Type} (r : result A) : pres A :=
  match r with ROk a => POk a | RErr => PErr | RPanic => PPanic end.
Definition pbind {A B : Type} (r : pres A) (f : A -> pres B) : pres B :=
  match r with POk a => f a | PErr => PErr | PPanic => PPanic | PExit => PExit end.

(** src/config.rs:1183-1216, `get_fake_mac`: the prefix and the last four octets that identify the
    address *)
Definition fake_mac (prefix : N) (a : saddr) : N :=
  match sa_ip a with
  | V4 x => prefix * 2 ^ 32 + x
  | V6 x => prefix * 2 ^ 32 + x mod 2 ^ 32
  end.

Section External.
  (** compiled with the `discovery` feature *)
  Variable feature : bool.
  (** `get_mac` (src/config.rs:1174-1181): the MAC address of the network interface with a given name *)
  Variable get_mac : bytes -> option N.
  (** `get_socket_address` (src/net/utils.rs:22-31) of a string and of a host with a port: name resolution *)
  Variable resolve : bytes -> option saddr.
  Variable resolve_host : bytes -> N -> option saddr.

  (** src/config.rs:1218-1253, `parse_rtsp_url`, and 1255-1290, `parse_mjpeg_url`, which differ in the
      scheme, the default port and the kinds of services. *)
  Definition parse_svc_url (scheme : bytes) (dport : N) (open_svc : N -> saddr -> bytes -> service)
      (locked_svc : N -> saddr -> option bytes -> service) (text : bytes) : result service :=
    rbind (url_parse text) (fun u =>
    rbind (url_scheme u) (fun sc =>
      if negb (eq_ignore_case sc scheme) then RErr else
      rbind (url_host u) (fun host =>
      let port := match u_port u with Some p => p | None => dport end in
      match resolve_host host port with
      | None => RErr
      | Some a =>
          let mac := fake_mac 65535 a in
          rbind (url_path u) (fun path =>
          rbind (url_query u) (fun q =>
          let path' := match q with Some t => path ++ 63 :: t | None => path end in
          rbind (url_username u) (fun user =>
            ROk (match user with Some _ => locked_svc mac a (Some path') | None => open_svc mac a path' end))))
      end))).
  Definition parse_rtsp_url : bytes -> result service := parse_svc_url (lit "rtsp") 554 svc_rtsp svc_locked_rtsp.
  Definition parse_mjpeg_url : bytes -> result service := parse_svc_url (lit "http") 80 svc_mjpeg svc_locked_mjpeg.

  (** src/config.rs:545-559, `arrow_service_address` *)
  Definition service_address (addr : bytes) : bytes :=
    if ends_with [93] addr || match find_char 58 addr with None => true | Some _ => false end
    then addr ++ lit ":8900" else addr.

  (** The options with a separate value (src/config.rs:490-497). *)
  Definition takes_value (a : bytes) : bool :=
    existsb (beq a) [lit "-c"; lit "-D"; lit "-i"; lit "-r"; lit "-m"; lit "-h"; lit "-t"].

  Definition add_service (c : cparser) (r : result service) : pres cparser :=
    pbind (of_result r) (fun s => POk (set_services (cp_services c ++ [s]) c)).
  Definition opt_result {A : Type} (o : option A) : result A := match o with Some a => ROk a | None => RErr end.

  (** src/config.rs:561-666: `ca_certificates`, `discovery_whitelist`, `interface`, `rtsp_service`,
      `mjpeg_service`, `http_service`, `tcp_service` *)
  Definition apply_value (a v : bytes) (c : cparser) : pres cparser :=
    if beq a (lit "-c") then POk (set_ca (cp_ca c ++ [v]) c)
    else if beq a (lit "-D") then
      (if feature then POk (set_disc true (set_white (cp_white c ++ [v]) c)) else PErr)
    else if beq a (lit "-i") then
      pbind (of_result (opt_result (get_mac v))) (fun m => POk (set_mac (Some m) c))
    else if beq a (lit "-r") then add_service c (parse_rtsp_url v)
    else if beq a (lit "-m") then add_service c (parse_mjpeg_url v)
    else if beq a (lit "-h") then
      add_service c (rbind (opt_result (resolve v)) (fun s => ROk (svc_http (fake_mac 65535 s) s)))
    else if beq a (lit "-t") then
      add_service c (rbind (opt_result (resolve v)) (fun s => ROk (svc_tcp (fake_mac 65535 s) s)))
    else PErr.

  (** src/config.rs:792-817: the device descriptions *)
  Definition described (t : bytes) : option bytes := match trim t with [] => None | b => Some b end.

  (** `&arg[n..]` *)
  Definition from (n : nat) (a : bytes) (f : bytes -> pres cparser) : pres cparser :=
    pbind (of_result (slice a n (List.length a))) f.

  (** The other arguments (src/config.rs:491, 498-538) with their handlers (572-581, 668-817). A usize
      is 64 bits wide here. *)
  Definition apply_single (a : bytes) (c : cparser) : pres cparser :=
    if beq a (lit "-d") then (if feature then POk (set_disc true c) else PErr)
    else if beq a (lit "-v") then POk (set_verbose true c)
    else if beq a (lit "--flash-friendly") then POk (set_flash true c)
    else if beq a (lit "--diagnostic-mode") then POk (set_diag true c)
    else if beq a (lit "--no-gateway-mode") then POk (set_gateway false c)
    else if beq a (lit "--log-stderr") then POk (set_logger LStderr c)
    else if beq a (lit "--log-stderr-pretty") then POk (set_logger LStderrPretty c)
    else if beq a (lit "--help") then PExit
    else if beq a (lit "--version") then PExit
    else if starts_with (lit "--config-file=") a then from 14 a (fun v => POk (set_config v c))
    else if starts_with (lit "--config-file-skel=") a then from 19 a (fun v => POk (set_skel v c))
    else if starts_with (lit "--conn-state-file=") a then from 18 a (fun v => POk (set_state v c))
    else if starts_with (lit "--identity-file=") a then from 16 a (fun v => POk (set_identity (Some v) c))
    else if starts_with (lit "--rtsp-paths=") a then
      (if feature then from 13 a (fun v => POk (set_rtsp v c)) else PErr)
    else if starts_with (lit "--mjpeg-paths=") a then
      (if feature then from 14 a (fun v => POk (set_mjpeg v c)) else PErr)
    else if starts_with (lit "--log-file=") a then from 11 a (fun v => POk (set_log v (set_logger LFile c)))
    else if starts_with (lit "--log-file-size=") a then
      from 16 a (fun v => pbind (of_result (opt_result (parse_uint 10 (2 ^ 64 - 1) v))) (fun n => POk (set_logsize n c)))
    else if starts_with (lit "--log-file-rotations=") a then
      from 21 a (fun v => pbind (of_result (opt_result (parse_uint 10 (2 ^ 64 - 1) v))) (fun n => POk (set_logrot n c)))
    else if starts_with (lit "--lock-file=") a then from 12 a (fun v => POk (set_lock (Some v) c))
    else if starts_with (lit "--device-category=") a then from 18 a (fun v => POk (set_cat (described v) c))
    else if starts_with (lit "--device-type=") a then from 14 a (fun v => POk (set_type (described v) c))
    else if starts_with (lit "--device-vendor=") a then from 16 a (fun v => POk (set_vendor (described v) c))
    else PErr.

  (** The loop of src/config.rs:488-540. *)
  Fixpoint parse_args (c : cparser) (args : list bytes) : pres cparser :=
    match args with
    | [] => POk c
    | a :: rest =>
        if takes_value a
        then match rest with
             | [] => PErr
             | v :: rest' => match apply_value a v c with
                             | POk c' => parse_args c' rest'
                             | e => e
                             end
             end
        else match apply_single a c with
             | POk c' => parse_args c' rest
             | e => e
             end
    end.

  (** src/config.rs:481-543, `ConfigParser::parse`: the application name is skipped. *)
  Definition parse_line (args : list bytes) : pres cparser :=
    match tl args with
    | [] => PErr
    | addr :: rest => parse_args (set_addr (service_address addr) cparser_new) rest
    end.
End External.

(** The configuration the client runs with: the fields of `Config` and `DefaultStorage` and the logger
    that come from the command line. *)
Record running := {
  r_addr : bytes;
  r_mac : N;
  r_services : list service;
  r_flash : bool;
  r_diag : bool;
  r_gateway : bool;
  r_disc : bool;
  r_white : list bytes;
  r_verbose : bool;
  r_cat : option bytes;
  r_type : option bytes;
  r_vendor : option bytes;
  r_logger : logger_type;
  r_log : bytes * N * N;
  r_config : bytes;
  r_lock : option bytes;
  r_skel : option bytes;
  r_state : option bytes;
  r_identity : option bytes;
  r_rtsp : option bytes;
  r_mjpeg : option bytes;
  r_ca : list bytes
}.

(** src/config.rs:136: flash-friendly mode of `ConfigBuilder` unless its method `flash_friendly` is called *)
Definition flash_default : bool := false.

(** src/config.rs:432-479, `ConfigParser::build`, up to the input and output it starts (locking,
    opening the log, loading the configuration: Model/Config.v). `flash_friendly` is not passed on, so
    the builder keeps its default. The whitelist is a set. *)
Definition build (first_mac : option N) (c : cparser) : result running :=
  match match cp_mac c with Some m => Some m | None => first_mac end with
  | None => RErr
  | Some m =>
      ROk {| r_addr := cp_addr c; r_mac := m; r_services := cp_services c; r_flash := flash_default;
             r_diag := cp_diag c; r_gateway := cp_gateway c; r_disc := cp_disc c; r_white := cp_white c;
             r_verbose := cp_verbose c; r_cat := cp_cat c; r_type := cp_type c; r_vendor := cp_vendor c;
             r_logger := cp_logger c; r_log := (cp_log c, cp_logsize c, cp_logrot c);
             r_config := cp_config c; r_lock := cp_lock c; r_skel := Some (cp_skel c);
             r_state := Some (cp_state c); r_identity := cp_identity c; r_rtsp := Some (cp_rtsp c);
             r_mjpeg := Some (cp_mjpeg c); r_ca := cp_ca c |}
  end.
