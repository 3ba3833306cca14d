(** Cameras that are announced, and one that is not. *)
From Coq Require Import String NArith ZArith List Bool Lia.
From Verif.Model Require Import Bytes Frame Text Service Control Http Sdp Discovery Raw Scan Alist SvcTable Session Manager Client Config.
From Verif.Spec Require Import ControlSpec ManagerSpec ClientSpec TableSpec ConfigSpec ReachSpec CurrentSpec RawSpec DiscoverySpec ScanSpec PaceSpec OriginSpec AnnounceSpec.
From Verif.Proofs Require Import BytesFacts DiscMaps SdpFinal ClientPropsPf2 TableProofs TablePropsPf ConfigProofs TableCases ReachCases CurrentCases ScanCases PaceCases AnnouncePf.
Import ListNotations.
Local Open Scope N_scope.
Local Open Scope list_scope.

(** A camera with a stream at "/live" of one of its ports; it has nothing at "/none", nor at other ports. *)
Definition says (code : N) : rheader := {| rh_protocol := lit "RTSP"; rh_version := lit "1.0"; rh_code := code; rh_line := lit "x"; rh_fields := fields_new |}.
Definition live_at (port : N) (a : saddr) (p : bytes) : option (rheader * bytes) :=
  if (sa_port a =? port) && beq p (lit "/live") then Some (says 200, example_sdp) else Some (says 404, []).
Definition cam_scan (frames : list bytes) (port : N) : scanning :=
  {| n_air := air_of frames; n_lossy := same; n_lc := lowers; n_uc := upper; n_describe := live_at port; n_header := fun _ _ => None;
     n_rtsp := fun _ => true; n_rtsp_paths := [lit "/none"; lit "/live"]; n_mjpeg_paths := []; n_whitelist := []; n_devices := ex_devices |}.
Definition one_port : list bytes := [reply_of ex_dev local_ip; syn_says cam local_ip 554].
Definition two_ports : list bytes := [reply_of ex_dev local_ip; syn_says cam local_ip 8554; syn_says cam local_ip 554].
Definition services (n : scanning) : list service := match result_of n with Gives r => services_of r | _ => [] end.

Ltac frames_ok := repeat (apply Forall_cons; [bytes_ok|]); apply Forall_nil.
Lemma cam_real fs port : Forall wf_bytes fs -> real (cam_scan fs port).
Proof. intros H. split; [now apply near_obeys|]. exact (ex_all_netted []). Qed.
Lemma whole_554 port : port = 554 \/ port = 8554 -> syn_ack_from (dv_ip ex_dev) cam local_ip port (syn_says cam local_ip port) /\ whole_tcp (syn_says cam local_ip port).
Proof.
  intros [-> | ->]; (split; [repeat split; reflexivity|]); (split; [split; [reflexivity|split; vm_compute; discriminate]|]); (split; [reflexivity|]); split; vm_compute; discriminate.
Qed.
Lemma live_plays fs port : plays (cam_scan fs port) (at_port local_ip port) (lit "/live").
Proof.
  exists (says 200), example_sdp. split; [cbn [cam_scan n_describe]; unfold live_at; cbn [at_port sa_port]; now rewrite N.eqb_refl|]. split.
  - cbn [cam_scan n_lc]. intros ((f & H & _) & _). vm_compute in H. discriminate H.
  - split; [reflexivity|vm_compute; reflexivity].
Qed.
Lemma live_first fs port : first_playing (cam_scan fs port) (at_port local_ip port) (lit "/live").
Proof.
  exists [lit "/none"], []. split; [reflexivity|]. split; [apply live_plays|]. intros q [<-|[]].
  assert (X : n_describe (cam_scan fs port) (at_port local_ip port) (lit "/none") = Some (says 404, [])).
  { cbn [cam_scan n_describe]. unfold live_at. cbn [at_port sa_port]. rewrite N.eqb_refl. reflexivity. }
  split; [intros (h & b & E & _ & C & _)|intros (h & b & E & _ & C)]; rewrite X in E; injection E as <- <-; discriminate C.
Qed.
Lemma one_host r : map fst (sc_hosts r) = [(cam, V4 local_ip)] -> paired r.
Proof.
  intros H. assert (G : forall m i, known r (m, i) -> m = cam /\ i = V4 local_ip).
  { intros m i K. unfold known, host_flags in K. destruct (mget hkey_dec (m, i) (sc_hosts r)) as [h|] eqn:X; [|now contradict K].
    apply mget_in in X. apply (in_map fst) in X. rewrite H in X. destruct X as [[= -> ->]|[]]. now split. }
  intros m1 i1 m2 i2 A B. apply G in A as (-> & ->), B as (-> & ->). split; reflexivity.
Qed.
Lemma cam_good fs port : (fs = one_port /\ port = 554) \/ (fs = two_ports /\ port = 8554) ->
  exists r, well_scanned (cam_scan fs port) ex_name ex_dev 10000000 1000000 r /\ services_of r = services (cam_scan fs port).
Proof.
  intros C. destruct (result_of (cam_scan fs port)) as [| | |r] eqn:E.
  1-3: destruct C as [(-> & ->)|(-> & ->)]; vm_compute in E; discriminate E.
  exists r. assert (HH : map fst (sc_hosts r) = [(cam, V4 local_ip)]).
  { change r with (match Gives r with Gives x => x | _ => r end). rewrite <- E. destruct C as [(-> & ->)|(-> & ->)]; vm_compute; reflexivity. }
  split; [|unfold services; now rewrite E]. split; [apply cam_real; destruct C as [(-> & _)|(-> & _)]; frames_ok|]. split.
  { intros p [[<-|[<-|[]]]|[]]; (split; [bytes_ok|vm_compute; intuition discriminate]). }
  split; [exact E|]. split; [apply near_clocks|]. split; [now apply one_host|]. split; [now left|]. split; [now left|]. split; [apply near_working|].
  split; [vm_compute; discriminate|]. unfold nlen, hosts_of. rewrite map_length, <- (map_length fst), HH. vm_compute. discriminate.
Qed.
Lemma cam_camera : rtsp_camera (cam_scan one_port 554) ex_name ex_dev 10000000 1000000 cam local_ip 554 (lit "/live").
Proof.
  destruct (whole_554 554 ltac:(now left)) as (A & B). split; [|apply live_first]. split.
  - split; reflexivity.
  - apply near_arp. now left.
  - apply near_port; [right; now left|exact A|exact B].
  - reflexivity.
  - exists [], (tl rtsp_ports). split; [reflexivity|intros q []].
Qed.

(** The table and the server *)
Definition start_ys : list happening := [HOther (KPoll []); HOther (KPoll [SMsg 1 (env_of (table_new 0) (table_new 0) []) (ack_msg 0 0)])].
Definition found_l : list (Z * service) := map (fun s => (5%Z, s)) (services (cam_scan one_port 554)).
Lemma announced_case :
  exists r w w', well_scanned (cam_scan one_port 554) ex_name ex_dev 10000000 1000000 r /\ rtsp_camera (cam_scan one_port 554) ex_name ex_dev 10000000 1000000 cam local_ip 554 (lit "/live") /\
  consistent (table_new 0) /\ sane (table_new 0) /\ (forall id s, stored (table_new 0) id = Some s -> plain s) /\ wf_identity race_id /\
  built_ops (table_part start_ys) /\ sane_ops (table_part start_ys) /\ (forall x s, In (x, s) (adds (table_part start_ys)) -> plain s) /\
  map snd found_l = services_of r /\ Forall (fun p => sane_time (fst p) /\ (6 - 1200 <= fst p)%Z) found_l /\
  shown_changes hash0 (table_new 0) (table_part (start_ys ++ merged found_l ++ [HTable (TRefresh 6)])) < 2 ^ 32 /\
  world_run hash0 (world_new 0 race_id (table_new 0)) (start_ys ++ merged found_l ++ [HTable (TRefresh 6)]) = ROk w /\
  running (w_conn w) = true /\ registered (w_seen w) = true /\ (5 * SEC <= 10 * SEC - last_check 0 (w_seen w))%Z /\
  world_step hash0 w (HTick (10 * SEC)) = ROk w' /\ believes (w_seen w) = [] /\
  believes (w_seen w') = [announce (1, svc_rtsp cam (at_port local_ip 554) (lit "/live")); announce (2, svc_tcp cam (at_port local_ip 554))].
Proof.
  destruct (cam_good one_port 554) as (r & Gd & Es); [now left|].
  set (r1 := world_run hash0 (world_new 0 race_id (table_new 0)) (start_ys ++ merged found_l ++ [HTable (TRefresh 6)])).
  set (r2 := match r1 with ROk w => world_step hash0 w (HTick (10 * SEC)) | _ => RPanic end).
  set (ok := fun (r : result world) f => match r with ROk w => f w | _ => false end).
  assert (O1 : ok r1 (fun w => registered (w_seen w)) = true) by (vm_compute; reflexivity).
  assert (O2 : ok r1 (fun w => running (w_conn w)) = true) by (vm_compute; reflexivity).
  assert (O3 : ok r1 (fun w => (5 * SEC <=? 10 * SEC - last_check 0 (w_seen w))%Z) = true) by (vm_compute; reflexivity).
  assert (B1 : match r1 with ROk w => believes (w_seen w) | _ => [] end = []) by (vm_compute; reflexivity).
  assert (B2 : match r2 with ROk w => believes (w_seen w) | _ => [] end =
    [announce (1, svc_rtsp cam (at_port local_ip 554) (lit "/live")); announce (2, svc_tcp cam (at_port local_ip 554))]) by (vm_compute; reflexivity).
  assert (SC : shown_changes hash0 (table_new 0) (table_part (start_ys ++ merged found_l ++ [HTable (TRefresh 6)])) < 2 ^ 32) by (vm_compute; reflexivity).
  assert (Tl : Forall (fun p => sane_time (fst p) /\ (6 - 1200 <= fst p)%Z) found_l).
  { unfold found_l. generalize (services (cam_scan one_port 554)) as ss. intros ss. induction ss as [|s ss IH]; constructor; [|exact IH]. cbn [fst]. unfold sane_time. split; [split|]; vm_compute; congruence. }
  unfold ok in *. clearbody r1. destruct r1 as [w| |]; [|discriminate O1|discriminate O1]. cbv iota in r2. unfold r2 in *. clear r2.
  destruct (world_step hash0 w (HTick (10 * SEC))) as [w'| |] eqn:E; [|discriminate B2|discriminate B2]. apply Z.leb_le in O3.
  exists r, w, w'. split; [exact Gd|]. split; [exact cam_camera|].
  split; [apply table_new_consistent|]. split; [|split; [|split; [exact (proj1 (proj2 current_case))|]]].
  { intros id x H. unfold seen in H. let l := eval vm_compute in (t_map (table_new 0)) in change (t_map (table_new 0)) with l in H.
    cbn [alookup] in H. destruct (id =? 0); [|discriminate H]. injection H as <-. unfold sane_time. split; vm_compute; congruence. }
  { intros id s H. unfold stored in H. let l := eval vm_compute in (t_map (table_new 0)) in change (t_map (table_new 0)) with l in H.
    cbn [alookup] in H. destruct (id =? 0); [|discriminate H]. injection H as <-. split; [split; [|split]|]; cbn; intros; try discriminate; congruence. }
  split; [constructor|]. split; [constructor|]. split; [intros x s []|]. split; [unfold found_l; rewrite map_map; cbn [snd]; now rewrite map_id|].
  split; [exact Tl|]. split; [exact SC|]. split; [reflexivity|]. split; [exact O2|]. split; [exact O1|]. split; [exact O3|]. split; [exact E|]. split; [exact B1|exact B2].
Qed.

(** A server at a preferred port that has no stream hides the stream at another port. *)
Lemma hidden_case :
  exists n r name d mac ip port path, well_scanned n name d 10000000 1000000 r /\ network d < ip < broadcast d /\
    answers_arp (n_air n) name d 10000000 1000000 mac ip /\ answers_port (n_air n) name d 10000000 1000000 mac ip port /\
    In port rtsp_ports /\ n_rtsp n (at_port ip port) = true /\ first_playing n (at_port ip port) path /\
    forall s, In s (services_of r) -> s_addr s <> Some (at_port ip port) /\ s_type s <> RTSP.
Proof.
  destruct (cam_good two_ports 8554) as (r & Gd & Es); [now right|]. destruct (whole_554 8554 ltac:(now right)) as (A & B).
  exists (cam_scan two_ports 8554), r, ex_name, ex_dev, cam, local_ip, 8554, (lit "/live"). split; [exact Gd|]. split; [split; reflexivity|].
  split; [apply near_arp; now left|]. split; [apply near_port; [right; now left|exact A|exact B]|]. split; [cbn; tauto|]. split; [reflexivity|]. split; [apply live_first|].
  rewrite Es. intros s H. revert s H. apply Forall_forall. vm_compute. repeat constructor; discriminate.
Qed.

(** A camera with pictures at "/video" of port 80 *)
Definition web_says (code : N) (ty : bytes) : rheader :=
  {| rh_protocol := lit "HTTP"; rh_version := lit "1.1"; rh_code := code; rh_line := lit "x";
     rh_fields := fields_add lowers {| hf_name := lit "Content-Type"; hf_value := Some ty |} fields_new |}.
Definition web_scan : scanning :=
  {| n_air := air_of [reply_of ex_dev local_ip; syn_says cam local_ip 80]; n_lossy := same; n_lc := lowers; n_uc := upper; n_describe := fun _ _ => None;
     n_header := fun _ p => Some (if beq p (lit "/video") then web_says 200 (lit "image/jpeg") else web_says 200 (lit "text/html"));
     n_rtsp := fun _ => false; n_rtsp_paths := []; n_mjpeg_paths := [lit "/index"; lit "/video"]; n_whitelist := []; n_devices := ex_devices |}.
Lemma web_case : n_lc web_scan [] = [] /\ http_camera web_scan ex_name ex_dev 10000000 1000000 cam local_ip 80 (lit "/video") /\
  exists r, well_scanned web_scan ex_name ex_dev 10000000 1000000 r /\ In (svc_mjpeg cam (at_port local_ip 80) (lit "/video")) (services_of r).
Proof.
  assert (X : forall h, web_says 200 (lit "text/html") = h -> ~ says_mjpeg lowers h).
  { intros h <- (f & v & A & B & t & rest & I & D). vm_compute in A. injection A as <-. cbn [hf_value] in B. injection B as <-.
    destruct I as [<-|[<-|[<-|[]]]]; vm_compute in D; discriminate D. }
  assert (C : http_camera web_scan ex_name ex_dev 10000000 1000000 cam local_ip 80 (lit "/video")).
  { split.
    - split; [split; reflexivity|apply near_arp; now left| |cbn; discriminate|exists [], (tl http_ports); split; [reflexivity|intros q []]].
      apply near_port; [right; now left|repeat split; reflexivity|]. split; [split; [reflexivity|split; vm_compute; discriminate]|]. split; [reflexivity|]. split; vm_compute; discriminate.
    - exists [lit "/index"], []. split; [reflexivity|]. split.
      + exists (web_says 200 (lit "image/jpeg")). split; [reflexivity|]. split; [reflexivity|]. eexists _, _. split; [vm_compute; reflexivity|]. split; [reflexivity|].
        exists (lit "image/jpeg"), []. split; [cbn; tauto|vm_compute; reflexivity].
      + intros q [<-|[]]. split; [intros (h & E & _ & S)|intros (h & E & K)]; cbn [web_scan n_header] in E; injection E as <-; [now apply (X _ eq_refl)|discriminate K]. }
  split; [reflexivity|]. split; [exact C|]. destruct (result_of web_scan) as [| | |r] eqn:E.
  1-3: vm_compute in E; discriminate E.
  exists r. assert (HH : map fst (sc_hosts r) = [(cam, V4 local_ip)]).
  { change r with (match Gives r with Gives x => x | _ => r end). rewrite <- E. vm_compute; reflexivity. }
  assert (WS : well_scanned web_scan ex_name ex_dev 10000000 1000000 r).
  { split; [split; [apply near_obeys; frames_ok|exact (ex_all_netted [])]|]. split; [intros p [[]|[<-|[<-|[]]]]; (split; [bytes_ok|vm_compute; intuition discriminate])|].
    split; [exact E|]. split; [apply near_clocks|]. split; [now apply one_host|]. split; [now left|]. split; [now left|]. split; [apply near_working|].
    split; [vm_compute; discriminate|]. unfold nlen, hosts_of. rewrite map_length, <- (map_length fst), HH. vm_compute. discriminate. }
  split; [exact WS|]. exact (proj1 (proj2 (cameras_found _ _ _ _ _ _ WS) eq_refl _ _ _ _ C)).
Qed.
