(** C94: reading a packet. C95: the message of the last error. C96: network devices. C97: the threads of a scan. *)
From Coq Require Import String NArith ZArith List Bool Lia.
From Verif.Model Require Import Bytes Raw Capture.
From Verif.Spec Require Import CaptureSpec.
From Verif.Proofs Require Import CapturePf.
Import ListNotations.
Local Open Scope N_scope.

(** ** C94 *)

(** If no call fails before the library is asked for a packet: a packet is reported exactly if the library has given one, with
    exactly its bytes, a timeout exactly if there was none, and an error exactly if the library failed. *)
Theorem C94_partial : forall (c : read_calls), calls_ok c ->
  match read_packet c with
  | None => (rc_dispatch c < 0)%Z
  | Some (true, f) => rc_frame c = Some f /\ (0 < rc_dispatch c)%Z
  | Some (false, f) => f = [] /\ rc_dispatch c = 0%Z
  end.
Proof. exact read_exact. Qed.
Print Assumptions C94_partial.
Example C94_case :
  let c n := {| rc_open := true; rc_nonblock := true; rc_poll := 1; rc_errno := 0; rc_dispatch := n; rc_frame := if (0 <? n)%Z then Some [1; 2] else None |} in
  calls_ok (c 1%Z) /\ read_packet (c 1%Z) = Some (true, [1; 2]) /\ calls_ok (c 0%Z) /\ read_packet (c 0%Z) = Some (false, []) /\
  calls_ok (c (-1)%Z) /\ read_packet (c (-1)%Z) = None.
Proof. repeat split; cbn; try lia; try congruence. Qed.
(** Error numbers are positive: if poll or the library fails in one of the other calls, an empty packet is reported. *)
Theorem C94_error_refuted : forall (c : read_calls),
  rc_open c = false \/ rc_nonblock c = false \/ ((rc_poll c < 0)%Z /\ (0 < rc_errno c)%Z) -> read_packet c = Some (true, []).
Proof. exact read_error. Qed.
Print Assumptions C94_error_refuted.
(** So a device that fails permanently keeps a listener without a total limit running forever, at any speed. *)
Theorem C94_busy_refuted : forall (soft start : N) (ts : list N) (last : N) (acc : list packet),
  listen soft None start last (map (fun t => Rd (Some []) t t t) ts) acc = Running.
Proof. exact busy. Qed.
Print Assumptions C94_busy_refuted.

(** ** C95 *)

(** Whatever errors occur, whether or not there is memory: no byte is written outside of the buffer, the buffer always has a
    text that ends in it and is large enough for the library, and the text is that of the last error (cut only if there was no
    memory, and not before 255 bytes). *)
Theorem C95_buffer : forall (junk : N -> bytes) (l : list err_op), (forall n, nlen (junk n) = n) -> Forall err_ok l ->
  exists b, err_run junk l = Some b /\ 256 <= nlen b /\
    match rev l with
    | [] => c_text b = Some []
    | o :: _ => exists k, c_text b = Some (firstn k (err_text o)) /\ (255 <= k \/ length (err_text o) <= k)%nat /\
                          match o with OwnError false _ => True | _ => (length (err_text o) <= k)%nat end
    end.
Proof. exact errors_ok. Qed.
Print Assumptions C95_buffer.
Example C95_case :
  let junk n := repeat 77 (N.to_nat n) in
  let long := repeat 65 300 in
  match err_run junk [OwnError false long] with Some b => option_map nlen (c_text b) = Some 255 | None => False end /\
  match err_run junk [OwnError true long; OwnError true [66]] with Some b => c_text b = Some [66] /\ nlen b = 301 | None => False end.
Proof. vm_compute. auto. Qed.

(** ** C96 *)

(** The devices are exactly the Ethernet interfaces with an IPv4 address and mask, the last one first. *)
Theorem C96_partial : forall (l : list ifrec) (acc : list device), (forall r, In r l -> ~ maskless r) ->
  exists ds, listing l ds /\ find_devices l acc = Some (rev ds ++ acc).
Proof. exact devices_listed. Qed.
Print Assumptions C96_partial.
Theorem C96_listing : forall (l : list ifrec) (ds es : list device), listing l ds -> listing l es -> ds = es.
Proof. exact listing_fun. Qed.
Print Assumptions C96_listing.
(** An Ethernet interface with an IPv4 address and a null mask crashes the client. *)
Theorem C96_mask_refuted : forall (l : list ifrec) (acc : list device) (r : ifrec), In r l -> maskless r -> find_devices l acc = None.
Proof. exact devices_crash. Qed.
Print Assumptions C96_mask_refuted.
(** The hardware address of the client is that of the last interface, not of the first: any interface that is added (a bridge
    or a virtual one) changes it. *)
Theorem C96_last_refuted : forall (l : list ifrec) (ds : list device) (d : device), (forall r, In r l -> ~ maskless r) ->
  listing l (ds ++ [d]) -> match find_devices l [] with Some f => first_mac f = Some (d_mac d) | None => False end.
Proof. exact mac_is_last. Qed.
Print Assumptions C96_last_refuted.
(** An interface that is asked for by name is the one with exactly that name (the last one with several addresses). *)
Theorem C96_by_name : forall (l : list ifrec) (ds : list device) (name : bytes) (m : N), (forall r, In r l -> ~ maskless r) ->
  listing l ds ->
  match find_devices l [] with
  | Some f => get_mac name f = Some m <->
      exists a d b, ds = a ++ d :: b /\ d_name d = name /\ d_mac d = m /\ forall x, In x b -> d_name x <> name
  | None => False
  end.
Proof. exact mac_by_name. Qed.
Print Assumptions C96_by_name.
Definition eth0 : ifrec := {| if_name := lit "eth0"%string; if_addr := Some (2, 9); if_mask := Some (2, 255); if_hw := Some (1, 7) |}.
Definition docker0 : ifrec := {| if_name := lit "docker0"%string; if_addr := Some (2, 8); if_mask := Some (2, 255); if_hw := Some (1, 6) |}.
Definition lo : ifrec := {| if_name := lit "lo"%string; if_addr := Some (2, 1); if_mask := Some (2, 255); if_hw := Some (772, 0) |}.
Example C96_case : (forall r, In r [lo; eth0; docker0] -> ~ maskless r) /\
  option_map first_mac (find_devices [lo; eth0] []) = Some (Some 7) /\ option_map first_mac (find_devices [lo; eth0; docker0] []) = Some (Some 6) /\
  option_map (get_mac (lit "eth0"%string)) (find_devices [lo; eth0; docker0] []) = Some (Some 7).
Proof.
  split; [|vm_compute; auto]. intros r [X|[X|[X|[]]]]; subst r; intros [_ [_ M]]; discriminate M.
Qed.

(** ** C97 *)

(** Whatever the order of the steps of the two threads and whatever fails: the listener is active before the first frame is sent
    unless it could not be started; frames are sent in order, each once; a scan that succeeds has sent all of them with an
    active listener, which has ended; nothing happens after the result. *)
Theorem C97_partial : forall (count : nat) (l : list sr_step) (q : sr) (o : list sr_event), sr_run count l sr_new = (q, o) ->
  exists (act : bool) n ret, o = (if act then [VActive] else []) ++ map VSent (seq 0 n) ++ ret /\ (n <= count)%nat /\
    (ret = [] \/ ret = [VReturned false] \/ (ret = [VReturned true] /\ act = true /\ n = count /\ q_l q = LEnded true)).
Proof. exact sr_shape. Qed.
Print Assumptions C97_partial.
(** No deadlock, and a bound for the number of steps *)
Theorem C97_progress : forall (count : nat) (l : list sr_step) (q : sr) (o : list sr_event), sr_run count l sr_new = (q, o) ->
  (forall b, q_s q <> SReturned b) -> exists e, fst (sr_next count e q) <> q.
Proof. exact sr_progress. Qed.
Print Assumptions C97_progress.
Theorem C97_bound : forall (count : nat) (e : sr_step) (q : sr), fst (sr_next count e q) <> q ->
  (work count (fst (sr_next count e q)) < work count q)%nat.
Proof. exact sr_work. Qed.
Print Assumptions C97_bound.
Example C97_case :
  snd (sr_run 2 [StSender true; StListener true; StSender true; StListener true; StSender true; StSender true; StSender true;
                 StListener true; StSender true; StSender true; StSender true] sr_new)
  = [VActive; VSent 0; VSent 1; VReturned true].
Proof. vm_compute. reflexivity. Qed.
(** If the listener cannot be started, all frames are sent though no answer can be received. *)
Theorem C97_useless_refuted : exists l, snd (sr_run 2 l sr_new) = [VSent 0; VSent 1; VReturned false].
Proof. exists [StListener false; StSender true; StSender true; StSender true; StSender true; StSender true; StSender true]. vm_compute. reflexivity. Qed.
Print Assumptions C97_useless_refuted.
(** If sending fails, the scan returns while its listener goes on. *)
Theorem C97_left_refuted : exists l, let '(q, o) := sr_run 2 l sr_new in o = [VActive; VReturned false] /\ q_l q = LListening.
Proof. exists [StListener true; StListener true; StSender true; StSender false]. vm_compute. auto. Qed.
Print Assumptions C97_left_refuted.
