(** The probes of a scan in time: src/scanner/discovery.rs with `send` of src/net/rtsp/mod.rs and src/net/http/mod.rs.

    Times are milliseconds. Only the devices take time: the client itself is taken to be infinitely fast, and all requests that
    are made together start at the same time. *)
From Coq Require Import String NArith List Bool.
From Verif.Model Require Import Bytes Service Control Http Sdp Discovery.
Import ListNotations.
Local Open Scope N_scope.

(** What a request comes to if nobody stops it: the time it takes and its response, if any. [None]: it never ends. *)
Definition reply (A : Type) : Type := option (N * option A).
(** discovery.rs:192 *)
Definition REQUEST_TIMEOUT : N := 2000.
(** rtsp/mod.rs:250-259 and http/mod.rs:249-258: `tokio::time::timeout` asks the request first. A request that cannot be made is
    one that fails at once. The result is the time of the end and the response. *)
Definition send {A} (now : N) (r : reply A) : N * option A :=
  match r with
  | Some (t, x) => if t <=? REQUEST_TIMEOUT then (now + t, x) else (now + REQUEST_TIMEOUT, None)
  | None => (now + REQUEST_TIMEOUT, None)
  end.

Definition failed {A} (x : N * result A) : bool := match snd x with ROk _ => false | _ => true end.
Fixpoint all_ok {A} (l : list (result A)) : result (list A) :=
  match l with
  | [] => ROk []
  | ROk a :: r => match all_ok r with ROk l' => ROk (a :: l') | RErr => RErr | RPanic => RPanic end
  | RErr :: _ => RErr
  | RPanic :: _ => RPanic
  end.
(** `futures::future::join_all` of futures whose ends are known: the last end, or the first panic *)
Definition join_all {A} (now : N) (l : list (N * result A)) : N * result (list A) :=
  (match filter failed l with
   | [] => fold_left N.max (map fst l) now
   | x :: r => fold_left N.min (map fst r) (fst x)
   end, all_ok (map snd l)).

Section Probes.
  Variable ovf : bool.
  Variables lossy lc uc : bytes -> bytes.
  (** The devices: what they do may depend on the time of the request. *)
  Variable describe : N -> saddr -> bytes -> reply (rheader * bytes).
  Variable get_header : N -> saddr -> bytes -> reply rheader.
  Variable options : N -> saddr -> reply unit.

  (** discovery.rs:645-659: one path after the other *)
  Fixpoint rtsp_loop_at (now mac : N) (a : saddr) (paths : list bytes) (res : service) : N * result service :=
    match paths with
    | [] => (now, ROk res)
    | p :: r =>
        let (t, x) := send now (describe now a p) in
        match get_rtsp_stream ovf lossy lc uc (fun _ _ => x) mac a p with
        | ROk (Some v) =>
            match s_type v with
            | RTSP | LockedRTSP => (t, ROk v)
            | _ => rtsp_loop_at t mac a r v
            end
        | ROk None => rtsp_loop_at t mac a r res
        | RErr => (t, RErr)
        | RPanic => (t, RPanic)
        end
    end.
  (** discovery.rs:623-660: all services at the same time *)
  Definition rtsp_streams_at (now : N) (paths : list bytes) (l : list (N * saddr)) : N * result (list service) :=
    join_all now (map (fun c => rtsp_loop_at now (fst c) (snd c) paths (svc_unknown_rtsp (fst c) (snd c))) l).
  (** discovery.rs:735-748 *)
  Fixpoint mjpeg_path_at (now mac : N) (a : saddr) (paths : list bytes) : N * option service :=
    match paths with
    | [] => (now, None)
    | p :: r =>
        let (t, x) := send now (get_header now a p) in
        match get_mjpeg_stream lc (fun _ _ => x) mac a p with
        | Some v => (t, Some v)
        | None => mjpeg_path_at t mac a r
        end
    end.
  Definition fine {A} (x : N * A) : N * result A := (fst x, ROk (snd x)).
  (** discovery.rs:715-733 *)
  Definition mjpeg_streams_at (now : N) (paths : list bytes) (l : list (N * saddr)) : N * result (list (option service)) :=
    join_all now (map (fun c => fine (mjpeg_path_at now (fst c) (snd c) paths)) l).
  (** discovery.rs:555-583: the predicate is asked for all candidates at the same time *)
  Definition filter_services_at (now : N) (predicate : saddr -> N * bool) (l : list (N * saddr)) : N * list (N * saddr) :=
    (fst (join_all now (map (fun c => fine (predicate (snd c))) l)), filter (fun c => snd (predicate (snd c))) l).
  Definition answered {A} (x : N * option A) : N * bool := (fst x, match snd x with Some _ => true | None => false end).
  (** discovery.rs:484-498, 515-533 *)
  Definition rtsp_services_at (now : N) (l : list (N * saddr)) : N * list (N * saddr) :=
    filter_services_at now (fun a => if candidate RTSP_PORTS a then answered (send now (options now a)) else (now, false)) l.
  (** discovery.rs:500-503, 535-553 *)
  Definition http_services_at (now : N) (l : list (N * saddr)) : N * list (N * saddr) :=
    filter_services_at now (fun a => if candidate HTTP_PORTS a then answered (send now (get_header now a (lit "/"%string))) else (now, false)) l.

  (** discovery.rs:114-144: the probes after the scan of the networks *)
  Definition probes_at (now : N) (rtsp_paths mjpeg_paths : list bytes) (report : scan) : N * result scan :=
    let (t1, rtsp) := rtsp_services_at now (socket_addrs report) in
    let rtsp := filter_duplicit rtsp (get_port_priorities RTSP_PORTS) in
    let (t2, streams) := rtsp_streams_at t1 rtsp_paths rtsp in
    match streams with
    | ROk streams =>
        let (t3, http) := http_services_at t2 (socket_addrs report) in
        let http := filter_duplicit http (get_port_priorities HTTP_PORTS) in
        let (t4, mjpeg) := mjpeg_streams_at t3 mjpeg_paths http in
        (t4, match mjpeg with
             | ROk mjpeg =>
                 let r := fold_left (fun r v => add_service v r) streams report in
                 let r := fold_left (fun r c => add_service (svc_tcp (fst c) (snd c)) r) rtsp r in
                 let r := fold_left (fun r v => add_service v r) (flat_map (fun o => match o with Some v => [v] | None => [] end) mjpeg) r in
                 ROk (fold_left (fun r c => add_service (svc_http (fst c) (snd c)) r) http r)
             | RErr => RErr
             | RPanic => RPanic
             end)
    | RErr => (t2, RErr)
    | RPanic => (t2, RPanic)
    end.
End Probes.
