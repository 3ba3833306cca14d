(** Statements about the TLS stream and about the choice of the address. *)
From Coq Require Import NArith ZArith List Bool.
From Verif.Model Require Import Bytes Tls.
Import ListNotations.
Local Open Scope N_scope.

(** ** Wake-ups *)

Definition is_block {A} (r : io A) : bool := match r with IoErr EWouldBlock => true | _ => false end.
(** A call of OpenSSL tells that it would block only if its last operation on the stream did, whatever the operations return. *)
Fixpoint honest {R} (blocks : R -> bool) (last : bool) (c : call R) : Prop :=
  match c with
  | Done r => blocks r = true -> last = true
  | CRead _ k => forall r, honest blocks (is_block r) (k r)
  | CWrite _ k => forall r, honest blocks (is_block r) (k r)
  | CFlush k => forall r, honest blocks (is_block r) (k r)
  end.
Definition hs_block {E} (h : hands E) : bool := match h with HsBlock _ => true | _ => false end.
Definition shut_block (s : shut) : bool := match s with ShutIo EWouldBlock => true | _ => false end.
Record honest_engine {E} (en : engine E) : Prop := {
  ho_read : forall e n, honest (fun x => is_block (snd x)) false (en_read en e n);
  ho_write : forall e d, honest (fun x => is_block (snd x)) false (en_write en e d);
  ho_flush : forall e, honest (fun x => is_block (snd x)) false (en_flush en e);
  ho_shutdown : forall e, honest (fun x => shut_block (snd x)) false (en_shutdown en e);
  ho_connect : forall h, honest hs_block false (en_connect en h);
  ho_handshake : forall e, honest hs_block false (en_handshake en e) }.
(** A read gives no more bytes than there is room for. *)
Fixpoint fits {E} (room : N) (c : call (E * io bytes)) : Prop :=
  match c with
  | Done (_, IoOk d) => nlen d <= room
  | Done _ => True
  | CRead _ k => forall r, fits room (k r)
  | CWrite _ k => forall r, fits room (k r)
  | CFlush k => forall r, fits room (k r)
  end.
(** A socket that cannot go on is pending; it never returns the error "would block". *)
Record polite {T} (tr : transport T) : Prop := {
  po_read : forall s k n, snd (tr_read tr s k n) <> Ready (IoErr EWouldBlock);
  po_write : forall s k d, snd (tr_write tr s k d) <> Ready (IoErr EWouldBlock);
  po_flush : forall s k, snd (tr_flush tr s k) <> Ready (IoErr EWouldBlock) }.

(** ** Errors *)

Definition is_error {A} (r : io A) : bool := match r with IoErr (EOther _) => true | _ => false end.
(** A call of OpenSSL fails only if one of its operations on the stream has failed, whatever the operations return. *)
Fixpoint innocent {R} (fails : R -> bool) (seen : bool) (c : call R) : Prop :=
  match c with
  | Done r => fails r = true -> seen = true
  | CRead _ k => forall r, innocent fails (seen || is_error r) (k r)
  | CWrite _ k => forall r, innocent fails (seen || is_error r) (k r)
  | CFlush k => forall r, innocent fails (seen || is_error r) (k r)
  end.
Definition hs_fails {E} (h : hands E) : bool := match h with HsSetup _ | HsFailure _ => true | _ => false end.
Definition shut_fails (s : shut) : bool := match s with ShutIo (EOther _) | ShutSsl _ => true | _ => false end.
Record innocent_engine {E} (en : engine E) : Prop := {
  in_read : forall e n, innocent (fun x => is_error (snd x)) false (en_read en e n);
  in_write : forall e d, innocent (fun x => is_error (snd x)) false (en_write en e d);
  in_flush : forall e, innocent (fun x => is_error (snd x)) false (en_flush en e);
  in_shutdown : forall e, innocent (fun x => shut_fails (snd x)) false (en_shutdown en e);
  in_connect : forall h, innocent hs_fails false (en_connect en h);
  in_handshake : forall e, innocent hs_fails false (en_handshake en e) }.
(** A socket that is slow at most *)
Record working {T} (tr : transport T) : Prop := {
  wo_read : forall s k n x, snd (tr_read tr s k n) <> Ready (IoErr x);
  wo_write : forall s k d x, snd (tr_write tr s k d) <> Ready (IoErr x);
  wo_flush : forall s k x, snd (tr_flush tr s k) <> Ready (IoErr x);
  wo_shutdown : forall s k x, snd (tr_shutdown tr s k) <> Ready (IoErr x) }.
Definition no_error {T S A} (o : world T * option (S * poll (io A))) : Prop :=
  forall w s x, o <> (w, Some (s, Ready (IoErr x))).
(** The handshake has not failed *)
Definition not_failed {T E} (o : world T * option (conn E * poll (E + N))) : Prop :=
  forall w c x, o <> (w, Some (c, Ready (inr x))).
Definition unfailed {E} (c : conn E) : Prop := match c with CShake h => hs_fails h = false | _ => True end.

(** The task that polled with waker [k] is woken up: all polls of the socket used [k], and the last one was pending, so
    the socket wakes [k]. *)
Definition sleeps {T} (k : waker) (w w' : world T) : Prop :=
  exists l, w_polls w' = (k, true) :: l ++ w_polls w /\ Forall (fun p => fst p = k) l.
(** What every poll guarantees *)
Definition sound_poll {T S A} (k : waker) (w : world T) (o : world T * option (S * poll A)) : Prop :=
  exists w' s p, o = (w', Some (s, p)) /\ w_ctx w' = None /\ (p = Pending -> sleeps k w w').

(** ** The choice of the address *)
Local Open Scope Z_scope.

(** The first address that connects, if all before it fail; [None] if one of those before never answers *)
Fixpoint verdict (l : list attempt) : option (option N) :=
  match l with
  | [] => Some None
  | a :: r => match at_time a with
              | None => None
              | Some _ => if at_ok a then Some (Some (at_id a)) else verdict r
              end
  end.
(** Times in the order of the polls *)
Fixpoint ascending (t : Z) (l : list Z) : Prop :=
  match l with [] => True | x :: r => t <= x /\ ascending x r end.
(** Every start is at least a second after the one before; newest first *)
Fixpoint spaced (l : list (N * Z)) : Prop :=
  match l with
  | [] => True
  | (_, t) :: r => match r with [] => True | (_, t') :: _ => t' + SECOND <= t end /\ spaced r
  end.
(** What holds of the connections at any time: they start in the order of the addresses and a second apart; no more than four
    are open. *)
Definition state_ok (l : list attempt) (r : race) : Prop :=
  spaced (rc_starts r) /\ (length (rc_queue r) <= 4)%nat /\ exists n, map fst (rev (rc_starts r)) = map at_id (firstn n l).
(** The address fails or connects within [D]. *)
Definition within (D : Z) (a : attempt) : Prop := exists d, at_time a = Some d /\ d <= D.
