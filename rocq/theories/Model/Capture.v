(** Packet capture, network devices and the two threads of a scan: src/net/raw/pcap (mod.rs, wrapper-common.c, wrapper-linux.c)
    and src/net/raw/devices (mod.rs, devices-common.c, devices-linux.c, devices-utils.h). *)
From Coq Require Import String NArith ZArith List Bool.
From Verif.Model Require Import Bytes Exports.
Import ListNotations.
Local Open Scope N_scope.

(** ** Reading a packet *)

(** wrapper-linux.c:94-123: the calls of the operating system and of the library, as results. [poll_res]: the number of
    descriptors, or a negative number and an error number above zero. [dispatch]: the number of packets processed (the
    callback was called with the frame), or a negative number. *)
Definition EIO : Z := 5.
Definition EINVAL : Z := 22.
Record read_calls := { rc_open : bool; rc_nonblock : bool; rc_poll : Z; rc_errno : Z; rc_dispatch : Z; rc_frame : option bytes }.
(** The result and the frame passed to the callback *)
Definition wrapper_read (c : read_calls) : Z * option bytes :=
  if negb (rc_open c) then (EINVAL, None)
  else if negb (rc_nonblock c) then (EIO, None)
  else if (rc_poll c <? 0)%Z then (rc_errno c, None)
  else if (rc_dispatch c <? 0)%Z then (rc_dispatch c, rc_frame c)
  else (rc_dispatch c, rc_frame c).
(** mod.rs:176-189: [None] is an error; with mod.rs:222-234 the frame is appended to the buffer, which is empty (mod.rs:323) *)
Definition read_packet (c : read_calls) : option (bool * bytes) :=
  let '(ret, frame) := wrapper_read c in
  if (0 <=? ret)%Z then Some ((0 <? ret)%Z, match frame with Some f => f | None => [] end) else None.

(** ** The message of the last error *)

(** The buffer is as long as its size. *)
(** wrapper-common.c:79-88; [m]: whether memory can be allocated. The content of a new buffer is arbitrary. *)
Definition try_realloc (m : bool) (junk : N -> bytes) (size : N) (buf : bytes) : bytes := if m then junk size else buf.
(** `memcpy` to the start of the buffer; [None] is undefined behaviour *)
Definition copy_in (d buf : bytes) : option bytes := if nlen d <=? nlen buf then Some (d ++ skipn (length d) buf) else None.
(** wrapper-common.c:90-103; [s] is the text without its zero *)
Definition copy_error (m : bool) (junk : N -> bytes) (s buf : bytes) : option bytes :=
  let buf := if nlen buf <? nlen s + 1 then try_realloc m junk (nlen s + 1) buf else buf in
  let len := if nlen buf <? nlen s + 1 then nlen buf - 1 else nlen s in
  match copy_in (firstn (N.to_nat len) s) buf with
  | Some b => if len <? nlen b then Some (firstn (N.to_nat len) b ++ 0 :: skipn (N.to_nat len + 1) b) else None
  | None => None
  end.
(** wrapper-common.c:24-53: a new buffer of 256 bytes with an empty text *)
Definition error_new (junk : N -> bytes) : bytes := 0 :: skipn 1 (junk 256).
(** mod.rs:205-213, `CStr::from_ptr`: the bytes before the first zero; [None] if there is none in the buffer *)
Fixpoint c_text (buf : bytes) : option bytes :=
  match buf with
  | [] => None
  | c :: r => if c =? 0 then Some [] else option_map (cons c) (c_text r)
  end.
(** Calls of the library that get the buffer (`pcap_create`, `pcap_setnonblock`) write a text of less than 256 bytes and its
    zero. *)
Definition library_error (s buf : bytes) : option bytes := copy_in (s ++ [0]) buf.

(** ** Network devices *)

(** A record of `getifaddrs`: the name, the address and the mask (family, and the four bytes of an IPv4 address), or null;
    the hardware address `ioctl` gives for the name, with its type. *)
Record ifrec := { if_name : bytes; if_addr : option (N * N); if_mask : option (N * N); if_hw : option (N * N) }.
Definition AF_INET : N := 2.
Definition ARPHRD_ETHER : N := 1.
Record device := { d_name : bytes; d_mac : N; d_ip : N; d_mask : N }.
(** devices-utils.h:21-32; reading from null is undefined *)
Inductive rec_result := RecOk (ip : N) | RecFail | RecUB.
Definition ipv4_record (a : option (N * N)) : rec_result :=
  match a with
  | None => RecUB
  | Some (fam, ip) => if fam =? AF_INET then RecOk ip else RecFail
  end.
(** devices-linux.c:31-45, 47-69; memory is available. [None]: undefined behaviour; [Some None]: no device *)
Definition device_info (r : ifrec) : option (option device) :=
  match if_hw r with
  | Some (ty, mac) =>
      if ty =? ARPHRD_ETHER
      then match ipv4_record (if_addr r) with
           | RecUB => None
           | RecFail => Some None
           | RecOk ip =>
               match ipv4_record (if_mask r) with
               | RecUB => None
               | RecFail => Some None
               | RecOk mask => Some (Some {| d_name := if_name r; d_mac := mac; d_ip := ip; d_mask := mask |})
               end
           end
      else Some None
  | None => Some None
  end.
(** devices-linux.c:71-100: the newest device first; then mod.rs:52-70 and 72-80 keep the order *)
Fixpoint find_devices (l : list ifrec) (acc : list device) : option (list device) :=
  match l with
  | [] => Some acc
  | r :: rest =>
      match if_addr r with
      | None => find_devices rest acc
      | Some _ =>
          match device_info r with
          | None => None
          | Some None => find_devices rest acc
          | Some (Some d) => find_devices rest (d :: acc)
          end
      end
  end.
(** src/config.rs:1165-1172, `get_first_mac` *)
Definition first_mac (l : list device) : option N := match l with [] => None | d :: _ => Some (d_mac d) end.
(** src/config.rs:1174-1181, `get_mac` *)
Definition get_mac (name : bytes) (l : list device) : option N :=
  match find (fun d => beq (d_name d) name) l with Some d => Some (d_mac d) | None => None end.

(** ** The two threads of a scan: mod.rs:249-278 *)

Inductive lphase := LStart | LActive | LListening | LEnded (ok : bool).
Inductive sphase := SWaiting | SOpening | SSending (n : nat) | SJoining | SReturned (ok : bool).
(** What is seen from outside: the listener is active, frame [n] is sent, the scan returns *)
Inductive sr_event := VActive | VSent (n : nat) | VReturned (ok : bool).
(** [q_message], [q_closed]: the channel has a message, its sender is gone *)
Record sr := { q_l : lphase; q_s : sphase; q_message : bool; q_closed : bool }.
Definition sr_new : sr := {| q_l := LStart; q_s := SWaiting; q_message := false; q_closed := false |}.
(** A step of the listener or of the sender, which succeeds or not; [count] is the number of frames *)
Inductive sr_step := StListener (ok : bool) | StSender (ok : bool).
Definition sr_next (count : nat) (e : sr_step) (q : sr) : sr * list sr_event :=
  let l p m c := {| q_l := p; q_s := q_s q; q_message := m; q_closed := c |} in
  let s p := {| q_l := q_l q; q_s := p; q_message := q_message q; q_closed := q_closed q |} in
  match e with
  | StListener ok =>
      match q_l q with
      (* mod.rs:299-303: the capture; an error drops the sender of the channel *)
      | LStart => if ok then (l LActive (q_message q) (q_closed q), [VActive]) else (l (LEnded false) (q_message q) true, [])
      (* mod.rs:305-307 *)
      | LActive => (l LListening true true, [])
      (* mod.rs:309-337 *)
      | LListening => (l (LEnded ok) (q_message q) (q_closed q), [])
      | LEnded _ => (q, [])
      end
  | StSender ok =>
      match q_s q with
      (* mod.rs:273: waits for a message or the end of the channel *)
      | SWaiting => if q_message q || q_closed q then (s SOpening, []) else (q, [])
      (* mod.rs:275, 345 *)
      | SOpening => if ok then (s (SSending 0), []) else (s (SReturned false), [VReturned false])
      (* mod.rs:347-349 *)
      | SSending n => if Nat.ltb n count
                      then if ok then (s (SSending (S n)), [VSent n]) else (s (SReturned false), [VReturned false])
                      else (s SJoining, [])
      (* mod.rs:277: waits for the end of the listener *)
      | SJoining => match q_l q with LEnded r => (s (SReturned r), [VReturned r]) | _ => (q, []) end
      | SReturned _ => (q, [])
      end
  end.
