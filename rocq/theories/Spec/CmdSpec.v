(** The meaning of a command line. *)
From Coq Require Import NArith List Bool String.
From Verif.Model Require Import Bytes Service Text Utf8 Url TableJson CmdLine.
From Verif.Spec Require Import UrlSpec.
Import ListNotations.
Local Open Scope N_scope.
Local Open Scope list_scope.

(** The options of the client, with their values. *)
Inductive opt :=
| OCa (path : bytes)
| ODiscovery
| OWhitelist (iface : bytes)
| OMac (mac : N)
| OService (s : service)
| OVerbose
| OFlash
| ODiagnostic
| ONoGateway
| OStderr (pretty : bool)
| OLogFile (path : bytes)
| OLogSize (n : N)
| OLogRotations (n : N)
| OConfig (path : bytes)
| OSkeleton (path : bytes)
| OState (path : bytes)
| OIdentity (path : bytes)
| ORtspPaths (path : bytes)
| OMjpegPaths (path : bytes)
| OLock (path : bytes)
| OCategory (v : option bytes)
| OType (v : option bytes)
| OVendor (v : option bytes).

(** Whitespace around a text. *)
Definition white (s : bytes) : Prop := exists l, s = List.concat l /\ Forall (fun w => In w white_chars) l.
Definition trimmed (s t : bytes) : Prop :=
  exists a b, s = a ++ t ++ b /\ white a /\ white b /\
    forall w, In w white_chars -> starts_with w t = false /\ ends_with w t = false.
(** A description without text counts as none. *)
Definition description (s : bytes) (v : option bytes) : Prop :=
  trimmed s (match v with Some t => t | None => [] end) /\ v <> Some [].

(** The octets of a fake MAC address: ff:ff and the last four octets of the IP address. *)
Definition fake_octets (a : saddr) : N :=
  match sa_ip a with V4 x => 281470681743360 + x | V6 x => 281470681743360 + x mod 4294967296 end.

(** Digits of a decimal number, no value above the range of usize. *)
Definition number (t : bytes) (n : N) : Prop := parse_uint 10 18446744073709551615 t = Some n.

Section Options.
  Variable feature : bool.
  Variable get_mac : bytes -> option N.
  Variable resolve : bytes -> option saddr.
  Variable resolve_host : bytes -> N -> option saddr.

  (** The service described by a URL. *)
  Definition url_service (scheme : bytes) (dport : N) (open_type locked_type : svc_type) (t : bytes) (s : service) : Prop :=
    exists p a, url_ok p /\ t = assemble p /\ eq_ignore_case (up_scheme p) scheme = true /\
      resolve_host (up_host p) (match up_port p with Some (_, n) => n | None => dport end) = Some a /\
      s = {| s_type := match up_user p with None => open_type | Some _ => locked_type end;
             s_mac := Some (fake_octets a); s_addr := Some a;
             s_path := Some (match up_tail p with
                             | None => [47]
                             | Some (path, q, _) => path ++ opt_text 63 q
                             end) |}.

  (** How an option is written. *)
  Inductive written : list bytes -> opt -> Prop :=
  | w_ca v : written [lit "-c"; v] (OCa v)
  | w_d : feature = true -> written [lit "-d"] ODiscovery
  | w_D v : feature = true -> written [lit "-D"; v] (OWhitelist v)
  | w_i v m : get_mac v = Some m -> written [lit "-i"; v] (OMac m)
  | w_r v s : url_service (lit "rtsp") 554 RTSP LockedRTSP v s -> written [lit "-r"; v] (OService s)
  | w_m v s : url_service (lit "http") 80 MJPEG LockedMJPEG v s -> written [lit "-m"; v] (OService s)
  | w_h v a : resolve v = Some a ->
      written [lit "-h"; v] (OService {| s_type := HTTP; s_mac := Some (fake_octets a); s_addr := Some a; s_path := None |})
  | w_t v a : resolve v = Some a ->
      written [lit "-t"; v] (OService {| s_type := TCP; s_mac := Some (fake_octets a); s_addr := Some a; s_path := None |})
  | w_v : written [lit "-v"] OVerbose
  | w_flash : written [lit "--flash-friendly"] OFlash
  | w_diag : written [lit "--diagnostic-mode"] ODiagnostic
  | w_gate : written [lit "--no-gateway-mode"] ONoGateway
  | w_err : written [lit "--log-stderr"] (OStderr false)
  | w_pretty : written [lit "--log-stderr-pretty"] (OStderr true)
  | w_log v : written [lit "--log-file=" ++ v] (OLogFile v)
  | w_size v n : number v n -> written [lit "--log-file-size=" ++ v] (OLogSize n)
  | w_rot v n : number v n -> written [lit "--log-file-rotations=" ++ v] (OLogRotations n)
  | w_config v : written [lit "--config-file=" ++ v] (OConfig v)
  | w_skel v : written [lit "--config-file-skel=" ++ v] (OSkeleton v)
  | w_state v : written [lit "--conn-state-file=" ++ v] (OState v)
  | w_ident v : written [lit "--identity-file=" ++ v] (OIdentity v)
  | w_rtsp v : feature = true -> written [lit "--rtsp-paths=" ++ v] (ORtspPaths v)
  | w_mjpeg v : feature = true -> written [lit "--mjpeg-paths=" ++ v] (OMjpegPaths v)
  | w_lock v : written [lit "--lock-file=" ++ v] (OLock v)
  | w_cat v d : description v d -> written [lit "--device-category=" ++ v] (OCategory d)
  | w_type v d : description v d -> written [lit "--device-type=" ++ v] (OType d)
  | w_vendor v d : description v d -> written [lit "--device-vendor=" ++ v] (OVendor d).

  Inductive line : list bytes -> list opt -> Prop :=
  | l_nil : line [] []
  | l_cons a o rest os : written a o -> line rest os -> line (a ++ rest) (o :: os).

  (** A request to print something and exit. *)
  Definition asks_exit (args : list bytes) : Prop :=
    exists before after os a, args = before ++ a :: after /\ line before os /\ (a = lit "--help" \/ a = lit "--version").
End Options.

(** The last value given, or a default; all values given, in order; whether one was given. *)
Definition last_given {A : Type} (f : opt -> option A) (d : A) (os : list opt) : A :=
  fold_left (fun acc o => match f o with Some x => x | None => acc end) os d.
Definition all_given {A : Type} (f : opt -> option A) (os : list opt) : list A :=
  flat_map (fun o => match f o with Some x => [x] | None => [] end) os.
Definition given (f : opt -> bool) (os : list opt) : bool := existsb f os.

(** What the options say about every setting. *)
Record obeys (first_mac : option N) (addr : bytes) (os : list opt) (r : running) : Prop := {
  ob_addr : r_addr r = addr;
  ob_mac : Some (r_mac r) = last_given (fun o => match o with OMac m => Some (Some m) | _ => None end) first_mac os;
  ob_services : r_services r = all_given (fun o => match o with OService s => Some s | _ => None end) os;
  ob_diag : r_diag r = given (fun o => match o with ODiagnostic => true | _ => false end) os;
  ob_gateway : r_gateway r = negb (given (fun o => match o with ONoGateway => true | _ => false end) os);
  ob_disc : r_disc r = given (fun o => match o with ODiscovery | OWhitelist _ => true | _ => false end) os;
  ob_white : r_white r = all_given (fun o => match o with OWhitelist i => Some i | _ => None end) os;
  ob_verbose : r_verbose r = given (fun o => match o with OVerbose => true | _ => false end) os;
  ob_cat : r_cat r = last_given (fun o => match o with OCategory v => Some v | _ => None end) None os;
  ob_type : r_type r = last_given (fun o => match o with OType v => Some v | _ => None end) None os;
  ob_vendor : r_vendor r = last_given (fun o => match o with OVendor v => Some v | _ => None end) None os;
  ob_logger : r_logger r = last_given (fun o => match o with
                                                | OStderr false => Some LStderr
                                                | OStderr true => Some LStderrPretty
                                                | OLogFile _ => Some LFile
                                                | _ => None
                                                end) LSyslog os;
  ob_log : r_log r = (last_given (fun o => match o with OLogFile v => Some v | _ => None end) [] os,
                      last_given (fun o => match o with OLogSize n => Some n | _ => None end) 10240 os,
                      last_given (fun o => match o with OLogRotations n => Some n | _ => None end) 1 os);
  ob_config : r_config r = last_given (fun o => match o with OConfig v => Some v | _ => None end) (lit "/etc/arrow/config.json") os;
  ob_skel : r_skel r = Some (last_given (fun o => match o with OSkeleton v => Some v | _ => None end)
                              (lit "/etc/arrow/config-skel.json") os);
  ob_state : r_state r = Some (last_given (fun o => match o with OState v => Some v | _ => None end) (lit "/var/lib/arrow/state") os);
  ob_identity : r_identity r = last_given (fun o => match o with OIdentity v => Some (Some v) | _ => None end) None os;
  ob_rtsp : r_rtsp r = Some (last_given (fun o => match o with ORtspPaths v => Some v | _ => None end)
                              (lit "/etc/arrow/rtsp-paths") os);
  ob_mjpeg : r_mjpeg r = Some (last_given (fun o => match o with OMjpegPaths v => Some v | _ => None end)
                              (lit "/etc/arrow/mjpeg-paths") os);
  ob_ca : r_ca r = all_given (fun o => match o with OCa v => Some v | _ => None end) os;
  ob_lock : r_lock r = last_given (fun o => match o with OLock v => Some (Some v) | _ => None end) None os
}.
(** The flash-friendly mode. *)
Definition flash_obeyed (os : list opt) (r : running) : Prop :=
  r_flash r = given (fun o => match o with OFlash => true | _ => false end) os.

(** Addresses of the service: a host is a name or an IPv4 address (no colon), or a bracketed IPv6
    address. *)
Definition host_form (h : bytes) : Prop := ~ In 58 h \/ exists x, h = 91 :: x ++ [93].
Definition digits (p : bytes) : Prop := p <> [] /\ Forall (fun c => 48 <= c <= 57) p.
Definition expected_address (given : bytes) (handed : bytes) : Prop :=
  (host_form given -> handed = given ++ lit ":8900") /\
  (forall h p, host_form h -> digits p -> given = h ++ 58 :: p -> handed = given).
