(** C81: the requests of the network scanner.

    [lc] is `str::to_lowercase`, [ver] the version of the package, [v6] prints IPv6 addresses, [net] is the network: what
    the answer to some bytes sent to an address is. The definitions used in the statements are in Spec/RequestSpec.v. *)
From Coq Require Import String ZArith NArith List Bool Lia.
From Verif.Model Require Import Bytes Text Utf8 Service Http Request.
From Verif.Spec Require Import HttpSpec RequestSpec.
From Verif.Proofs Require Import RequestPf.
Import ListNotations.
Local Open Scope N_scope.

(** C81: a GET request for a path goes to the probed address and has exactly this text. *)
Theorem C81_http :
  forall (lc : bytes -> bytes) (ver : bytes) (v6 : N -> bytes) (t : Z) (a : saddr) (path : bytes),
    ascii_lc lc -> v6_ok v6 -> addr_ok a -> slash path -> utf8_valid path = true ->
    exists r, http_probe lc ver v6 t a path = ROk r /\ rq_host r = host_text v6 (sa_ip a) /\ rq_port r = sa_port a /\
      rq_timeout r = Some t /\ rq_ignore r = true /\
      encode (rq_inner r) = with_ends [lit "GET "%string ++ http_target path ++ lit " HTTP/1.0"%string;
                                       lit "Host: "%string ++ host_text v6 (sa_ip a);
                                       lit "User-Agent: ArrowClient/"%string ++ ver] ++ [13; 10].
Proof. intros. now apply http_probe_ok. Qed.
Print Assumptions C81_http.

(** C81: the same for DESCRIBE requests. *)
Theorem C81_describe :
  forall (lc : bytes -> bytes) (ver : bytes) (v6 : N -> bytes) (t : Z) (a : saddr) (path : bytes),
    ascii_lc lc -> v6_ok v6 -> addr_ok a -> slash path -> utf8_valid path = true ->
    exists r, describe_probe lc ver v6 t a path = ROk r /\ rq_host r = host_text v6 (sa_ip a) /\ rq_port r = sa_port a /\
      rq_timeout r = Some t /\ rq_ignore r = false /\
      encode (rq_inner r) = with_ends [lit "DESCRIBE rtsp://"%string ++ saddr_text v6 a ++ path ++ lit " RTSP/1.0"%string;
                                       lit "CSeq: 1"%string; lit "User-Agent: ArrowClient/"%string ++ ver;
                                       lit "Accept: application/sdp"%string] ++ [13; 10].
Proof. intros. now apply describe_ok. Qed.
Print Assumptions C81_describe.

(** C81: the same for OPTIONS requests. *)
Theorem C81_options :
  forall (lc : bytes -> bytes) (ver : bytes) (v6 : N -> bytes) (t : Z) (a : saddr),
    ascii_lc lc -> v6_ok v6 -> addr_ok a ->
    exists r, rtsp_probe lc ver v6 t a = ROk r /\ rq_host r = host_text v6 (sa_ip a) /\ rq_port r = sa_port a /\
      rq_timeout r = Some t /\ rq_ignore r = true /\
      encode (rq_inner r) = with_ends [lit "OPTIONS rtsp://"%string ++ saddr_text v6 a ++ lit "/ RTSP/1.0"%string;
                                       lit "CSeq: 1"%string; lit "User-Agent: ArrowClient/"%string ++ ver] ++ [13; 10].
Proof. intros. now apply options_ok. Qed.
Print Assumptions C81_options.

(** C81, for paths without spaces and line breaks: a server that reads the request finds exactly what was asked for, and
    nothing behind it. Missing: other paths, see below. *)
Theorem C81_http_read_partial :
  forall (lc : bytes -> bytes) (ver : bytes) (v6 : N -> bytes) (t : Z) (a : saddr) (path rest : bytes),
    ascii_lc lc -> v6_ok v6 -> Forall visible ver -> addr_ok a -> slash path -> utf8_valid path = true -> unbroken path ->
    exists r, http_probe lc ver v6 t a path = ROk r /\
      read_request (encode (rq_inner r) ++ rest) =
      Some {| rd_method := lit "GET"%string; rd_target := http_target path; rd_protocol := lit "HTTP/1.0"%string;
              rd_fields := [field (lit "Host"%string) (host_text v6 (sa_ip a)); field (lit "User-Agent"%string) (lit "ArrowClient/"%string ++ ver)];
              rd_rest := rest |}.
Proof. intros. now apply http_read. Qed.
Print Assumptions C81_http_read_partial.

Theorem C81_describe_read_partial :
  forall (lc : bytes -> bytes) (ver : bytes) (v6 : N -> bytes) (t : Z) (a : saddr) (path rest : bytes),
    ascii_lc lc -> v6_ok v6 -> Forall visible ver -> addr_ok a -> slash path -> utf8_valid path = true -> unbroken path ->
    exists r, describe_probe lc ver v6 t a path = ROk r /\
      read_request (encode (rq_inner r) ++ rest) =
      Some {| rd_method := lit "DESCRIBE"%string; rd_target := lit "rtsp://"%string ++ saddr_text v6 a ++ path; rd_protocol := lit "RTSP/1.0"%string;
              rd_fields := [field (lit "CSeq"%string) (lit "1"%string); field (lit "User-Agent"%string) (lit "ArrowClient/"%string ++ ver);
                            field (lit "Accept"%string) (lit "application/sdp"%string)];
              rd_rest := rest |}.
Proof. intros. now apply describe_read. Qed.
Print Assumptions C81_describe_read_partial.

Definition ascii_lower : bytes -> bytes := map lower.
Definition camera : saddr := {| sa_ip := V4 3232235777; sa_port := 8080 |}.

Example C81_case :
  ascii_lc ascii_lower /\ v6_ok (fun _ => lit "::1"%string) /\ Forall visible (lit "0.30.0"%string) /\ addr_ok camera /\
  slash (lit "/video?x=1#y"%string) /\ utf8_valid (lit "/video?x=1#y"%string) = true /\ unbroken (lit "/video?x=1#y"%string) /\
  http_target (lit "/video?x=1#y"%string) = lit "/video?x=1"%string /\ host_text (fun _ => []) (sa_ip camera) = lit "192.168.1.1"%string.
Proof.
  split; [intros s _; reflexivity|]. split; [intros n; vm_compute; repeat (constructor; [intuition discriminate|]); constructor|].
  split; [repeat (constructor; [split; vm_compute; discriminate|]); constructor|]. split; [vm_compute; discriminate|].
  split; [right; eexists; reflexivity|]. split; [reflexivity|].
  split; [repeat (constructor; [repeat split; discriminate|]); constructor|]. split; vm_compute; reflexivity.
Qed.

(** C81: the text of a request is the one of the steps that built it. *)
Theorem C81_built :
  forall (lc : bytes -> bytes) (protocol version method path : bytes) (os : list gstep),
    encode (fold_left (build lc) os (g_new protocol version method path)) =
    with_ends ((method ++ [32] ++ path ++ [32] ++ protocol ++ [47] ++ last_version version os) :: map field_text (listed lc (field_steps os))) ++ [13; 10] ++
    last_body os.
Proof. exact built_text. Qed.
Print Assumptions C81_built.
Example C81_built_case :
  encode (fold_left (build ascii_lower) [GSet (lit "A"%string) (lit "1"%string); GAdd (lit "b"%string) (lit "2"%string); GAdd (lit "A"%string) (lit "3"%string);
                                         GVersion (lit "1.1"%string); GSet (lit "B"%string) (lit "4"%string); GBody [9]]
                    (g_new (lit "HTTP"%string) (lit "1.0"%string) (lit "PUT"%string) (lit "/"%string))) =
  with_ends [lit "PUT / HTTP/1.1"%string; lit "A: 1"%string; lit "A: 3"%string; lit "B: 4"%string] ++ [13; 10; 9].
Proof. vm_compute. reflexivity. Qed.
(** C81: every request, of any method, has the word of its method, the protocol and its version. *)
Theorem C81_http_line : forall lc ver m s ignore r, http_request lc ver m s ignore = ROk r ->
  In (m, g_method (rq_inner r)) http_words /\ g_protocol (rq_inner r) = lit "HTTP"%string /\ g_version (rq_inner r) = lit "1.0"%string /\
  g_body (rq_inner r) = [] /\ rq_ignore r = ignore /\ rq_timeout r = Some 20000000000%Z.
Proof. exact http_request_line. Qed.
Print Assumptions C81_http_line.
Theorem C81_rtsp_line : forall lc ver m s ignore r, rtsp_request lc ver m s ignore = ROk r ->
  In (m, g_method (rq_inner r)) rtsp_words /\ g_protocol (rq_inner r) = lit "RTSP"%string /\ g_version (rq_inner r) = lit "1.0"%string /\
  g_body (rq_inner r) = [] /\ rq_ignore r = ignore /\ rq_timeout r = Some 20000000000%Z.
Proof. exact rtsp_request_line. Qed.
Print Assumptions C81_rtsp_line.
Example C81_line_case : exists r, http_request ascii_lower (lit "1"%string) HPUT (lit "http://1.2.3.4/x"%string) false = ROk r /\
  NoDup (map snd http_words) /\ NoDup (map snd rtsp_words).
Proof. eexists. split; [vm_compute; reflexivity|]. split; vm_compute. all: repeat (constructor; [cbn [In]; intros Hx; repeat (destruct Hx as [Hx|Hx]; [discriminate|]); exact Hx|]). all: constructor. Qed.

(** C81 fails for paths with line breaks (they can come from a custom storage): the server reads another field, and a
    second request. *)
Theorem C81_break_refuted :
  exists path r, slash path /\ utf8_valid path = true /\ http_probe ascii_lower (lit "1"%string) (fun _ => []) 0 camera path = ROk r /\
    match read_request (encode (rq_inner r)) with
    | Some d => rd_target d = lit "/a"%string /\ rd_fields d = [field (lit "X"%string) (lit "y"%string)] /\
                exists d2, read_request (rd_rest d) = Some d2 /\ rd_method d2 = lit "PUT"%string
    | None => False
    end.
Proof.
  exists (lit "/a HTTP/1.0"%string ++ [13; 10] ++ lit "X: y"%string ++ [13; 10; 13; 10] ++ lit "PUT /b"%string). eexists.
  split; [right; eexists; reflexivity|]. split; [reflexivity|]. split; [vm_compute; reflexivity|]. vm_compute.
  split; [reflexivity|]. split; [reflexivity|]. eexists. split; reflexivity.
Qed.
Print Assumptions C81_break_refuted.

(** C81 fails for paths that do not start with a slash: the request goes to another host. *)
Theorem C81_address_refuted :
  exists path r, utf8_valid path = true /\ unbroken path /\
    describe_probe ascii_lower (lit "1"%string) (fun _ => []) 0 camera path = ROk r /\
    rq_host r = lit "10.0.0.1"%string /\ rq_port r = 22 /\ rq_host r <> host_text (fun _ => []) (sa_ip camera).
Proof.
  exists (lit "@10.0.0.1:22/"%string). eexists. split; [reflexivity|].
  split; [repeat (constructor; [repeat split; discriminate|]); constructor|].
  split; [vm_compute; reflexivity|]. split; [reflexivity|]. split; [reflexivity|]. vm_compute. discriminate.
Qed.
Print Assumptions C81_address_refuted.

(** C81: whatever the path and the network, a probe ends, and it panics only if the response makes the decoder panic (C56). *)
Theorem C81_http_ends :
  forall (lc : bytes -> bytes) (ver : bytes) (bits : N) (v6 : N -> bytes) (net : network) (t : Z) (a : saddr) (path : bytes),
    v6_ok v6 -> utf8_valid path = true ->
    probe_header lc ver bits v6 net t a path <> SNever /\
    (probe_header lc ver bits v6 net t a path = SPanic -> exists host port request pieces closed,
       net host port request = Answered pieces closed /\ receive lc bits (http lc bits 4096 1024 true) pieces closed = Panic).
Proof. exact header_outcome. Qed.
Print Assumptions C81_http_ends.
Theorem C81_options_ends :
  forall (lc : bytes -> bytes) (ver : bytes) (bits : N) (v6 : N -> bytes) (net : network) (t : Z) (a : saddr), v6_ok v6 ->
    probe_options lc ver bits v6 net t a <> SNever /\
    (probe_options lc ver bits v6 net t a = SPanic -> exists host port request pieces closed,
       net host port request = Answered pieces closed /\ receive lc bits (rtsp lc bits 4096 1024 true) pieces closed = Panic).
Proof. exact options_outcome. Qed.
Print Assumptions C81_options_ends.
Theorem C81_describe_ends :
  forall (lc : bytes -> bytes) (ver : bytes) (bits : N) (v6 : N -> bytes) (net : network) (t : Z) (a : saddr) (path : bytes),
    v6_ok v6 -> utf8_valid path = true ->
    probe_describe lc ver bits v6 net t a path <> SNever /\
    (probe_describe lc ver bits v6 net t a path = SPanic -> exists host port request pieces closed,
       net host port request = Answered pieces closed /\ receive lc bits (rtsp lc bits 4096 1024 false) pieces closed = Panic).
Proof. exact describe_outcome. Qed.
Print Assumptions C81_describe_ends.

(** C81: a request for which no other timeout is set ends as well: after 20 seconds at the latest. *)
Theorem C81_request_ends :
  forall (lc : bytes -> bytes) (ver : bytes) (bits : N) (net : network) (text : bytes) (ignore : bool) (r : request),
    ((exists m, http_request lc ver m text ignore = ROk r) -> rq_timeout r = Some 20000000000%Z /\ send lc bits (http lc bits) net r <> SNever) /\
    ((exists m, rtsp_request lc ver m text ignore = ROk r) -> rq_timeout r = Some 20000000000%Z /\ send lc bits (rtsp lc bits) net r <> SNever).
Proof. exact request_ends. Qed.
Print Assumptions C81_request_ends.
Example C81_default_case : exists r, http_request ascii_lower (lit "1"%string) HGET (lit "http://a:81/b"%string) true = ROk r /\ rq_port r = 81.
Proof. eexists. split; [vm_compute; reflexivity|reflexivity]. Qed.
