(** What the records of the log say, written without the functions that make them. *)
From Coq Require Import String NArith ZArith List Bool.
From Verif.Model Require Import Bytes Frame Service Control Session Client MainTask Manager Logger Journal.
From Verif.Spec Require Import ControlSpec TextSpec NumeralSpec.
Import ListNotations.
Local Open Scope N_scope.

(** [s] is the number [n] in [radix], with zeros in front up to [w] digits. *)
Definition filled (radix : N) (w : nat) (n : N) (s : bytes) : Prop :=
  numeral radix s n /\ (w <= List.length s)%nat /\ (forall r, s = 48 :: r -> (List.length r < w)%nat).

(** The record of a connection to the service [svc] at [a] for the session [sid] *)
Definition opening (aprint : saddr -> bytes) (a : saddr) (svc sid : N) (r : jrec) : Prop :=
  exists x y, filled 16 4 svc x /\ filled 16 6 sid y /\ j_sev r = INFO /\
    j_text r = lit "connecting to remote service: "%string ++ aprint a ++ lit ", service ID: "%string ++ x ++ lit ", session ID: "%string ++ y.
(** The record of the end of the session [sid] *)
Definition ending (sid : N) (r : jrec) : Prop :=
  exists y, filled 16 6 sid y /\
    (j_sev r = INFO /\ j_text r = lit "closing service connection; session ID: "%string ++ y \/
     j_sev r = INFO /\ j_text r = lit "service connection closed; session ID: "%string ++ y \/
     j_sev r = WARN /\ exists err, j_text r = lit "service connection error; session ID: "%string ++ y ++ lit ": "%string ++ err).
(** According to the log, the session is open. *)
Definition shown_open (aprint : saddr -> bytes) (j : list jrec) (sid : N) : Prop :=
  exists j1 r j2 a svc, j = j1 ++ r :: j2 /\ opening aprint a svc sid r /\ Forall (fun x => ~ ending sid x) j2.
(** Why a connection is refused, given the log so far *)
Definition refusal (aprint : saddr -> bytes) (j : list jrec) (get : N -> option service) (gateway : bool) (svc sid : N) (reason : bytes) : Prop :=
  (shown_open aprint j sid /\ exists y, filled 16 6 sid y /\ reason = lit "the session already exists; session ID: "%string ++ y) \/
  ~ shown_open aprint j sid /\ exists x, filled 16 4 svc x /\
    (get svc = None /\ reason = lit "unknown service ID: "%string ++ x \/
     exists s, get svc = Some s /\
       (s_addr s = None /\ reason = lit "there is no address for a given service; service ID: "%string ++ x \/
        exists a, s_addr s = Some a /\ gateway = false /\ is_loopback (sa_ip a) = false /\
          reason = lit "gateway mode disabled (service ID: "%string ++ x ++ lit ")"%string)).
(** The hang-ups that are made, and the record of one *)
Definition hangups (h : list mobs) : list amsg :=
  List.concat (map (fun o => match o with OQueued m | OMsg (EndOf _ _) m => [m] | _ => [] end) h).
Definition hangup_told (m : amsg) (r : jrec) : Prop :=
  exists id sid code y z, m = amsg_of_cmsg (mk_hup id sid code) /\ filled 16 6 sid y /\ filled 16 8 code z /\ j_sev r = DEBUG /\
    j_text r = lit "sending a HUP message (session ID: "%string ++ y ++ lit ", error_code: "%string ++ z ++ lit ")..."%string.
Definition is_debug (r : jrec) : bool := match j_sev r with DEBUG => true | _ => false end.

(** Records that begin with a text *)
Fixpoint begins (p s : bytes) : bool :=
  match p, s with
  | [], _ => true
  | a :: p', b :: s' => N.eqb a b && begins p' s'
  | _, [] => false
  end.
Definition is_info (s : severity) : bool := match s with INFO => true | _ => false end.
Definition told (p : bytes) (j : list jrec) : list bytes :=
  map j_text (filter (fun r => is_info (j_sev r) && begins p (j_text r)) j).

(** The addresses of the connection attempts *)
Definition tried (h : list mtobs) : list bytes :=
  List.concat (map (fun o => match o with TAttempt _ a => [a] | _ => [] end) h).
(** The sleeps: the time of the result before and the end of the sleep *)
Fixpoint sleeps (now : Z) (h : list mtobs) : list (Z * Z) :=
  match h with
  | [] => []
  | TResult t _ :: h' => sleeps t h'
  | TWait u :: h' => (now, u) :: sleeps now h'
  | _ :: h' => sleeps now h'
  end.
(** The announcement of a sleep: seconds and milliseconds, rounded down *)
Definition announced (s : Z * Z) (text : bytes) : Prop :=
  exists x y secs ms,
    text = lit "retrying in "%string ++ x ++ lit "."%string ++ y ++ lit " seconds"%string /\
    filled 10 1 secs x /\ filled 10 3 ms y /\ ms < 1000 /\
    (Z.of_N (secs * 1000 + ms) * 1000000 <= snd s - fst s < Z.of_N (secs * 1000 + ms + 1) * 1000000)%Z.

(** The servers that refused the client: the address of the attempt before each answer "unauthorized" *)
Fixpoint refusers (cur : bytes) (h : list mtobs) : list bytes :=
  match h with
  | [] => []
  | TAttempt _ a :: h' => refusers a h'
  | TResult _ (Failed Unauthorized) :: h' => cur :: refusers cur h'
  | _ :: h' => refusers cur h'
  end.
(** The other failures *)
Definition failures (h : list mtobs) : list Z :=
  List.concat (map (fun o => match o with TResult _ (Failed Unauthorized) => [] | TResult t (Failed _) => [t] | _ => [] end) h).
Definition is_warn (r : jrec) : bool := match j_sev r with WARN => true | _ => false end.

(** The record that the main task stops for ever, and its reason *)
Definition SUSP : jrec := {| j_sev := INFO; j_text := lit "suspending the connection thread"%string |}.
Definition why_text (k : ekind) : bytes := match k with UnsupportedProtocolVersion => lit "unsupported protocol version"%string | _ => lit "pairing window timeout"%string end.
(** The last result is the reason, no attempt follows, and the record is the last one. *)
Definition ends_suspended (h : list mtobs) (j : list jrec) : Prop :=
  exists h1 te k h2 j1 r, h = h1 ++ TResult te (Failed k) :: h2 /\ tried h2 = [] /\ j = j1 ++ [r; SUSP] /\ ~ In SUSP j1 /\
    j_sev r = INFO /\ (k = UnsupportedProtocolVersion \/ k = Unauthorized) /\ j_text r = why_text k.

(** The targets of the redirections *)
Definition targets (h : list mtobs) : list bytes := List.concat (map (fun o => match o with TResult _ (Redirected a) => [a] | _ => [] end) h).
(** A text without line feeds *)
Definition no_lf (s : bytes) : Prop := ~ In 10 s.
