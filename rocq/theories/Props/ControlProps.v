(** C05-C12: Arrow Control Protocol messages. *)
From Coq Require Import NArith List Permutation.
From Verif.Model Require Import Bytes Frame Service Control.
From Verif.Spec Require Import FrameSpec ControlSpec FactorySpec.
From Verif.Proofs Require Import ControlProofs ControlReaders FactoryPf.
Import ListNotations.
Local Open Scope N_scope.

(** C05: [server_message b m] says byte by byte what each message looks like. *)
Theorem C05_control_roundtrip :
  (forall b m, server_message b m -> cmsg_encode m = b /\ cmsg_from_bytes (cmsg_encode m) = ROk m) /\
  (forall b m, wf_bytes b -> cmsg_from_bytes b = ROk m -> cmsg_encode m = b).
Proof. exact control_roundtrip. Qed.
Print Assumptions C05_control_roundtrip.

Example C05_case :
  server_message [1; 2; 0; 5; 0; 1; 2; 3; 0; 0; 0; 3]
    {| cm_id := 258; cm_type := 5; cm_body := BHup 66051 3 |}.
Proof. apply (SM_hup 258 66051 3); reflexivity. Qed.

(** The code of every message type, as it is written and as it is read *)
Theorem C05_codes : forall (code : N) (t : ctype), t <> UNKNOWN ->
  (In (code, t) wire_codes <-> message_type code = t) /\ (In (code, t) wire_codes <-> ctype_code t = Some code).
Proof. exact type_codes. Qed.
Print Assumptions C05_codes.
Example C05_codes_case : message_type 13 = CONNECT /\ ctype_code CONNECT = Some 13 /\ message_type 14 = UNKNOWN.
Proof. repeat split. Qed.

(** C06: the decoder never panics and accepts exactly the messages of the grammar. *)
Theorem C06_control_total :
  forall b, wf_bytes b ->
    cmsg_from_bytes b <> RPanic /\ forall m, cmsg_from_bytes b = ROk m <-> server_message b m.
Proof. exact control_total. Qed.
Print Assumptions C06_control_total.

Example C06_case :
  cmsg_from_bytes [0; 1; 0; 3; 104; 105; 0] = ROk {| cm_id := 1; cm_type := 3; cm_body := BRedirect [104; 105] |} /\
  cmsg_from_bytes [0; 1; 0; 2; 104; 105; 0] = RErr /\ cmsg_from_bytes [0; 1; 0; 3; 237; 160; 128; 0] = RErr.
Proof. repeat split. Qed.

(** C07: announced lengths ([fixed_arrays]: UUID and key are 16-byte arrays, as their type says). *)
Theorem C07_lengths :
  forall m : cmsg, fixed_arrays (cm_body m) -> cmsg_len m = nlen (cmsg_encode m).
Proof. exact cmsg_len_ok. Qed.
Print Assumptions C07_lengths.

Example C07_case :
  let t := [(5, svc_rtsp 1 {| sa_ip := V4 1; sa_port := 554 |} [47; 97])] in
  fixed_arrays (BRegister (repeat 1 16) (repeat 2 16) 3 4 1 [65] t) /\
  cmsg_len {| cm_id := 0; cm_type := 2; cm_body := BRegister (repeat 1 16) (repeat 2 16) 3 4 1 [65] t |} = 112.
Proof. repeat split. Qed.

(** C08: whatever the iteration order of the table, the server recovers exactly the services. *)
Theorem C08_table_recovered :
  forall (svcs order : list (N * service)) (x : bytes),
    NoDup (map fst svcs) -> Forall wf_entry svcs -> Forall (fun e => nul_free_path (snd e)) svcs ->
    Permutation order (table_of_services svcs) ->
    exists entries, read_table (table_encode order ++ x) = Some (entries, x) /\
      Permutation entries (map announce svcs).
Proof. exact table_recovered. Qed.
Print Assumptions C08_table_recovered.

Theorem C08_update_recovered :
  forall (svcs order : list (N * service)) (id : N),
    id < 2 ^ 16 ->
    NoDup (map fst svcs) -> Forall wf_entry svcs -> Forall (fun e => nul_free_path (snd e)) svcs ->
    Permutation order (table_of_services svcs) ->
    exists entries, read_update (cmsg_encode (mk_update id order)) = Some (id, entries) /\
      Permutation entries (map announce svcs).
Proof. exact update_recovered. Qed.
Print Assumptions C08_update_recovered.

(** The caveat is real: a NUL in a path corrupts the table. *)
Theorem C08_nul_path_differs :
  exists svcs, NoDup (map fst svcs) /\ Forall wf_entry svcs /\
    forall x, read_table (table_encode svcs) <> Some (map announce svcs, x).
Proof. exact nul_path_differs. Qed.
Print Assumptions C08_nul_path_differs.

Example C08_case :
  let svcs := [(7, svc_rtsp 1 {| sa_ip := V4 1; sa_port := 554 |} [47; 97]);
               (9, svc_http 2 {| sa_ip := V6 3; sa_port := 80 |})] in
  NoDup (map fst svcs) /\ Forall wf_entry svcs /\ Forall (fun e => nul_free_path (snd e)) svcs /\
  read_table (table_encode svcs) = Some (map announce svcs, []).
Proof.
  cbn zeta. split; [repeat constructor; cbn; intuition discriminate|]. split; [|split; [|vm_compute; reflexivity]].
  - apply Forall_cons; [|apply Forall_cons; [|apply Forall_nil]];
      (split; [reflexivity|]; split; [left; discriminate|]; split; [|split]; cbn; intros ? H; inversion H; subst; repeat constructor).
  - apply Forall_cons; [|apply Forall_cons; [|apply Forall_nil]]; intros p H; inversion H; subst.
    cbn. intros [E|[E|[]]]; discriminate.
Qed.

(** C09: every REGISTER field is recovered; a window out of range is refused. *)
Theorem C09_register_recovered :
  forall (id : N) (uuid key : bytes) (mac window : N) (gateway : bool)
         (svcs order : list (N * service)) (info : bytes) (m : cmsg),
    id < 2 ^ 16 -> length uuid = 16%nat -> length key = 16%nat -> mac < 2 ^ 48 -> no_nul info ->
    NoDup (map fst svcs) -> Forall wf_entry svcs -> Forall (fun e => nul_free_path (snd e)) svcs ->
    Permutation order (table_of_services svcs) ->
    mk_register id uuid key mac window gateway order info = ROk m ->
    exists entries,
      read_register (cmsg_encode m) =
      Some (id, {| g_uuid := uuid; g_key := key; g_mac := mac; g_window := window; g_gateway := gateway;
                   g_info := info; g_table := entries |}) /\
      Permutation entries (map announce svcs).
Proof. exact register_recovered. Qed.
Print Assumptions C09_register_recovered.

Theorem C09_register_window :
  forall id uuid key mac window gateway order info,
    (1 <= window <= 65536 -> exists m, mk_register id uuid key mac window gateway order info = ROk m) /\
    (~ 1 <= window <= 65536 -> mk_register id uuid key mac window gateway order info = RPanic).
Proof. exact register_window. Qed.
Print Assumptions C09_register_window.

Example C09_case :
  exists m, mk_register 3 (repeat 1 16) (repeat 2 16) 5 65536 true
    [(7, svc_tcp 1 {| sa_ip := V4 1; sa_port := 9 |})] [123; 125] = ROk m.
Proof. eexists. reflexivity. Qed.

(** C10 is false for a host with all 65536 ports open: the port count is a truncated u16. *)
Theorem C10_scan_report_refuted :
  exists h order id req,
    wf_host h /\ NoDup (hr_ports h) /\
    forall r, read_report (cmsg_encode (mk_scan_report id req [h] order)) = Some r ->
      rp_hosts r <> [announce_host h].
Proof. exact report_refuted. Qed.
Print Assumptions C10_scan_report_refuted.

(** C10 with fewer than 65536 ports per host. [get_id] is the service table's lookup. One entry is
    reported per ID: two scanned services with the same identity share it. *)
Theorem C10_scan_report_partial :
  forall (id req : N) (hosts : list host) (svcs : list service) (get_id : ident -> option N)
         (order : list (N * service)),
    id < 2 ^ 16 -> req < 2 ^ 16 ->
    nlen hosts < 2 ^ 32 -> Forall wf_host hosts -> Forall (fun h => nlen (hr_ports h) < 65536) hosts ->
    Forall (fun s => wf_service s /\ nul_free_path s) svcs ->
    (forall s i, In s svcs -> get_id (to_ident s) = Some i -> i < 2 ^ 16 /\ i <> 0) ->
    Permutation order (scan_report_services get_id svcs) ->
    exists entries,
      read_report (cmsg_encode (mk_scan_report id req hosts order)) =
      Some {| rp_id := id; rp_request := req; rp_hosts := map announce_host hosts; rp_services := entries |} /\
      NoDup (map e_id entries) /\
      (forall e, In e entries ->
         exists s, In s svcs /\ get_id (to_ident s) = Some (e_id e) /\ e = announce (e_id e, s)) /\
      (forall s i, In s svcs -> get_id (to_ident s) = Some i -> In i (map e_id entries)).
Proof. exact report_recovered. Qed.
Print Assumptions C10_scan_report_partial.

Example C10_case :
  let h := {| hr_flags := 3; hr_mac := 77; hr_ip := V4 9; hr_ports := [80; 554] |} in
  let s := svc_http 77 {| sa_ip := V4 9; sa_port := 80 |} in
  wf_host h /\
  read_report (cmsg_encode (mk_scan_report 1 2 [h] (scan_report_services (fun _ => Some 12) [s])))
  = Some {| rp_id := 1; rp_request := 2; rp_hosts := [announce_host h]; rp_services := [announce (12, s)] |}.
Proof. split; [repeat constructor|vm_compute; reflexivity]. Qed.

(** C11: message IDs. *)
Theorem C11_message_ids :
  forall (cs : list fcall) (i j : nat) (ci cj : fcall) (mi mj : cmsg),
    nth_error cs i = Some ci -> nth_error (factory_run factory_new cs) i = Some (ROk mi) -> consumes_id ci = true ->
    nth_error cs j = Some cj -> nth_error (factory_run factory_new cs) j = Some (ROk mj) -> consumes_id cj = true ->
    (cm_id mi = cm_id mj <->
     N.of_nat (consumed (firstn i cs)) mod 65536 = N.of_nat (consumed (firstn j cs)) mod 65536).
Proof. exact ids_repeat. Qed.
Print Assumptions C11_message_ids.

Theorem C11_acks_echo :
  forall (cs : list fcall) (i : nat) (id err : N) (f : factory),
    nth_error cs i = Some (FAck id err) ->
    nth_error (factory_run f cs) i = Some (ROk (mk_ack id err)).
Proof. exact acks_echo. Qed.
Print Assumptions C11_acks_echo.

(** The factory makes the message it is asked for: the [i]-th call gets the next free ID and its own arguments. *)
Theorem C11_made :
  forall (cs : list fcall) (i : nat) (c : fcall),
    nth_error cs i = Some c ->
    nth_error (factory_run factory_new cs) i = Some (made (N.of_nat (consumed (firstn i cs)) mod 65536) c).
Proof. intros cs i c. exact (run_made cs i c factory_new). Qed.
Print Assumptions C11_made.

Example C11_case :
  map (fun r => match r with ROk m => Some (cm_id m) | _ => None end)
      (factory_run factory_new [FPing; FAck 77 0; FHup 1 0; FRegister [] [] 0 0 false [] []; FPing])
  = [Some 0; Some 77; Some 1; None; Some 3].
Proof. vm_compute. reflexivity. Qed.

(** C12, sending side: the reserved byte is zero in every frame, HUP and DATA_ACK, whatever session ID
    the caller passes. *)
Theorem C12_sent_reserved_zero :
  (forall m, nth_error (amsg_encode m) 3 = Some 0) /\
  (forall id s e, nth_error (cmsg_encode (mk_hup id s e)) 4 = Some 0) /\
  (forall id s l, nth_error (cmsg_encode (mk_data_ack id s l)) 4 = Some 0).
Proof. exact (conj sent_frame_reserved (conj sent_hup_reserved sent_data_ack_reserved)). Qed.
Print Assumptions C12_sent_reserved_zero.

Example C12_sent_case :
  cmsg_encode (mk_hup 1 4278190085 0) = [0; 1; 0; 5; 0; 0; 0; 5; 0; 0; 0; 0].
Proof. vm_compute. reflexivity. Qed.
