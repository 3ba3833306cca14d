(** Statements about packet capture, devices and scans. *)
From Coq Require Import NArith ZArith List Bool.
From Verif.Model Require Import Bytes Raw Capture.
Import ListNotations.
Local Open Scope N_scope.

(** No call fails before the library is asked for a packet; the library calls back exactly if it counts a packet. *)
Definition calls_ok (c : read_calls) : Prop :=
  rc_open c = true /\ rc_nonblock c = true /\ (0 <= rc_poll c)%Z /\ ((0 < rc_dispatch c)%Z <-> rc_frame c <> None).

(** ** The message of the last error *)

(** What happens to the buffer: an error of the wrapper (with or without memory), or one the library writes *)
Inductive err_op := OwnError (memory : bool) (s : bytes) | LibraryError (s : bytes).
Definition err_text (o : err_op) : bytes := match o with OwnError _ s => s | LibraryError s => s end.
(** Texts have no zero byte; the library writes at most 255 bytes. *)
Definition err_ok (o : err_op) : Prop :=
  ~ In 0 (err_text o) /\ match o with LibraryError s => nlen s < 256 | _ => True end.
Definition err_step (junk : N -> bytes) (o : err_op) (buf : option bytes) : option bytes :=
  match buf, o with
  | Some b, OwnError m s => copy_error m junk s b
  | Some b, LibraryError s => library_error s b
  | None, _ => None
  end.
Definition err_run (junk : N -> bytes) (l : list err_op) : option bytes :=
  fold_left (fun b o => err_step junk o b) l (Some (error_new junk)).

(** ** Devices *)

(** The devices of a list of interface records, in its order. 2 is the address family of IPv4 (AF_INET) and 1 the
    hardware type of Ethernet (ARPHRD_ETHER). *)
Inductive listing : list ifrec -> list device -> Prop :=
| listing_nil : listing [] []
| listing_dev : forall name mac ip mask l ds, listing l ds ->
    listing ({| if_name := name; if_addr := Some (2, ip); if_mask := Some (2, mask); if_hw := Some (1, mac) |} :: l)
            ({| d_name := name; d_mac := mac; d_ip := ip; d_mask := mask |} :: ds)
| listing_skip : forall r l ds, listing l ds ->
    (forall mac ip mask, ~ (if_hw r = Some (1, mac) /\ if_addr r = Some (2, ip) /\ if_mask r = Some (2, mask))) ->
    listing (r :: l) ds.
(** An Ethernet device with an IPv4 address but without any mask *)
Definition maskless (r : ifrec) : Prop :=
  (exists mac, if_hw r = Some (1, mac)) /\ (exists ip, if_addr r = Some (2, ip)) /\ if_mask r = None.

(** ** Scans *)

Fixpoint sr_run (count : nat) (l : list sr_step) (q : sr) : sr * list sr_event :=
  match l with
  | [] => (q, [])
  | e :: r => let '(q1, o1) := sr_next count e q in let '(q2, o2) := sr_run count r q1 in (q2, o1 ++ o2)
  end.
Definition frames_sent (o : list sr_event) : list nat := flat_map (fun e => match e with VSent n => [n] | _ => [] end) o.
(** An upper bound for the number of steps that are left *)
Definition work (count : nat) (q : sr) : nat :=
  match q_l q with LStart => 3 | LActive => 2 | LListening => 1 | LEnded _ => 0 end +
  match q_s q with SWaiting => count + 4 | SOpening => count + 3 | SSending n => count - n + 2 | SJoining => 1 | SReturned _ => 0 end.
