(** C137: a camera that answers is announced to the server, from the first frame of a scan to the message that lists it.
    Combines C136, C64, C65, C79 and C129. *)
From Coq Require Import String NArith ZArith List Bool.
From Verif.Model Require Import Bytes Frame Text Service Control Http Sdp Discovery Raw Scan Alist SvcTable Session Manager Client Config.
From Verif.Spec Require Import ControlSpec ClientSpec TableSpec ConfigSpec ReachSpec CurrentSpec RawSpec DiscoverySpec ScanSpec PaceSpec OriginSpec AnnounceSpec.
From Verif.Proofs Require Import TableProofs TableCases ClientPropsPf2 ReachCases ScanCases PaceCases AnnouncePf AnnounceCases.
Import ListNotations.
Local Open Scope N_scope.
Local Open Scope list_scope.

(** A camera that answers, at the first of its ports, is in the report with its first path. *)
Theorem C137_found_partial : forall n name d pace delay r, well_scanned n name d pace delay r ->
  (forall mac ip port path, rtsp_camera n name d pace delay mac ip port path ->
     In (svc_rtsp mac (at_port ip port) path) (services_of r) /\ In (svc_tcp mac (at_port ip port)) (services_of r)) /\
  (n_lc n [] = [] -> forall mac ip port path, http_camera n name d pace delay mac ip port path ->
     In (svc_mjpeg mac (at_port ip port) path) (services_of r) /\ In (svc_http mac (at_port ip port)) (services_of r)).
Proof. exact cameras_found. Qed.
Print Assumptions C137_found_partial.

(** All services of a report, of whatever kind, can be sent, and the server knows them after the next check of the table. *)
Theorem C137_told : forall n r, real n -> clean_paths n -> result_of n = Gives r ->
  forall hash t0 i tb ys zs l now w t w',
    consistent tb -> sane tb -> (forall id s, stored tb id = Some s -> plain s) -> wf_identity i ->
    built_ops (table_part ys) -> sane_ops (table_part ys) -> (forall x s, In (x, s) (adds (table_part ys)) -> plain s) ->
    map snd l = services_of r -> Forall (fun p => sane_time (fst p) /\ (now - 1200 <= fst p)%Z) l ->
    shown_changes hash tb (table_part (ys ++ merged l ++ HTable (TRefresh now) :: zs)) < 2 ^ 32 -> table_part zs = [] ->
    world_run hash (world_new t0 i tb) (ys ++ merged l ++ HTable (TRefresh now) :: zs) = ROk w ->
    running (w_conn w) = true -> registered (w_seen w) = true ->
    (5 * SEC <= t - last_check t0 (w_seen w))%Z -> world_step hash w (HTick t) = ROk w' ->
    forall s, In s (services_of r) -> exists id, In (announce (id, s)) (believes (w_seen w')).
Proof. exact report_told. Qed.
Print Assumptions C137_told.

(** Both together *)
Theorem C137_camera_partial : forall n name d pace delay r mac ip port path, well_scanned n name d pace delay r ->
  forall hash t0 i tb ys zs l now w t w',
    consistent tb -> sane tb -> (forall id s, stored tb id = Some s -> plain s) -> wf_identity i ->
    built_ops (table_part ys) -> sane_ops (table_part ys) -> (forall x s, In (x, s) (adds (table_part ys)) -> plain s) ->
    map snd l = services_of r -> Forall (fun p => sane_time (fst p) /\ (now - 1200 <= fst p)%Z) l ->
    shown_changes hash tb (table_part (ys ++ merged l ++ HTable (TRefresh now) :: zs)) < 2 ^ 32 -> table_part zs = [] ->
    world_run hash (world_new t0 i tb) (ys ++ merged l ++ HTable (TRefresh now) :: zs) = ROk w ->
    running (w_conn w) = true -> registered (w_seen w) = true ->
    (5 * SEC <= t - last_check t0 (w_seen w))%Z -> world_step hash w (HTick t) = ROk w' ->
    (rtsp_camera n name d pace delay mac ip port path ->
       exists id, In (announce (id, svc_rtsp mac (at_port ip port) path)) (believes (w_seen w'))) /\
    (n_lc n [] = [] -> http_camera n name d pace delay mac ip port path ->
       exists id, In (announce (id, svc_mjpeg mac (at_port ip port) path)) (believes (w_seen w'))).
Proof. exact camera_told. Qed.
Print Assumptions C137_camera_partial.

(** A camera with a stream at "/live" of port 554 *)
Example C137_case :
  exists r w w', well_scanned (cam_scan one_port 554) ex_name ex_dev 10000000 1000000 r /\
  rtsp_camera (cam_scan one_port 554) ex_name ex_dev 10000000 1000000 ScanCases.cam local_ip 554 (lit "/live") /\
  consistent (table_new 0) /\ sane (table_new 0) /\ (forall id s, stored (table_new 0) id = Some s -> plain s) /\ wf_identity race_id /\
  built_ops (table_part start_ys) /\ sane_ops (table_part start_ys) /\ (forall x s, In (x, s) (adds (table_part start_ys)) -> plain s) /\
  map snd found_l = services_of r /\ Forall (fun p => sane_time (fst p) /\ (6 - 1200 <= fst p)%Z) found_l /\
  shown_changes hash0 (table_new 0) (table_part (start_ys ++ merged found_l ++ [HTable (TRefresh 6)])) < 2 ^ 32 /\
  world_run hash0 (world_new 0 race_id (table_new 0)) (start_ys ++ merged found_l ++ [HTable (TRefresh 6)]) = ROk w /\
  running (w_conn w) = true /\ registered (w_seen w) = true /\ (5 * SEC <= 10 * SEC - last_check 0 (w_seen w))%Z /\
  world_step hash0 w (HTick (10 * SEC)) = ROk w' /\ believes (w_seen w) = [] /\
  believes (w_seen w') = [announce (1, svc_rtsp ScanCases.cam (at_port local_ip 554) (lit "/live")); announce (2, svc_tcp ScanCases.cam (at_port local_ip 554))].
Proof. exact announced_case. Qed.

(** A camera with pictures at "/video" of port 80 *)
Example C137_case_http : n_lc web_scan [] = [] /\ http_camera web_scan ex_name ex_dev 10000000 1000000 ScanCases.cam local_ip 80 (lit "/video") /\
  exists r, well_scanned web_scan ex_name ex_dev 10000000 1000000 r /\ In (svc_mjpeg ScanCases.cam (at_port local_ip 80) (lit "/video")) (services_of r).
Proof. exact web_case. Qed.

(** In general it is not: one port of each host is probed for streams. A camera that has its stream at port 8554, and speaks RTSP at
    port 554 as well, is reported without a stream, and port 8554 not at all. *)
Theorem C137_second_refuted :
  exists n r name d mac ip port path, well_scanned n name d 10000000 1000000 r /\ network d < ip < broadcast d /\
    answers_arp (n_air n) name d 10000000 1000000 mac ip /\ answers_port (n_air n) name d 10000000 1000000 mac ip port /\
    In port rtsp_ports /\ n_rtsp n (at_port ip port) = true /\ first_playing n (at_port ip port) path /\
    forall s, In s (services_of r) -> s_addr s <> Some (at_port ip port) /\ s_type s <> RTSP.
Proof. exact hidden_case. Qed.
Print Assumptions C137_second_refuted.
