(** What the client writes to its log: the records of the main task and of the session manager.

    A record is a severity and a text; time, place and line feed are added by the logger (Model/Logger.v). Texts of errors of
    the operating system, of the TLS library and of the Arrow protocol are arguments. *)
From Coq Require Import String NArith ZArith List Bool.
From Verif.Model Require Import Bytes Text Frame Service Control Session Manager Client MainTask Logger.
Import ListNotations.
Local Open Scope N_scope.

Record jrec := { j_sev : severity; j_text : bytes }.
Definition say (s : severity) (parts : list bytes) : jrec := {| j_sev := s; j_text := List.concat parts |}.

(** `{:0wx}`: lower case hexadecimal digits, filled up with zeros to [w] *)
Fixpoint print_hex_fuel (fuel : nat) (n : N) : bytes :=
  match fuel with
  | O => []
  | S f => if n <? 16 then [hex_digit n] else print_hex_fuel f (n / 16) ++ [hex_digit (n mod 16)]
  end.
Definition print_hex (n : N) : bytes := print_hex_fuel (S (N.size_nat n)) n.
Definition fill (c : N) (w : nat) (s : bytes) : bytes := repeat c (w - List.length s) ++ s.
Definition hexw (w : nat) (n : N) : bytes := fill 48 w (print_hex n).

Section Journal.
  (** `Display for SocketAddr` of the Rust standard library *)
  Variable aprint : saddr -> bytes.

  (** src/net/arrow/session.rs:648-653 *)
  Definition hup_rec (sid code : N) : jrec :=
    say DEBUG [lit "sending a HUP message (session ID: "%string; hexw 6 sid; lit ", error_code: "%string; hexw 8 code; lit ")..."%string].
  (** src/net/arrow/session.rs:576-580 and 662-666 *)
  Definition closing_rec (sid : N) : jrec := say INFO [lit "closing service connection; session ID: "%string; hexw 6 sid].
  (** src/net/arrow/session.rs:694-698 *)
  Definition closed_rec (sid : N) : jrec := say INFO [lit "service connection closed; session ID: "%string; hexw 6 sid].
  (** src/net/arrow/session.rs:711-716 *)
  Definition error_rec (sid : N) (err : bytes) : jrec :=
    say WARN [lit "service connection error; session ID: "%string; hexw 6 sid; lit ": "%string; err].
  (** src/net/arrow/session.rs:626-632 *)
  Definition opening_rec (a : saddr) (svc sid : N) : jrec :=
    say INFO [lit "connecting to remote service: "%string; aprint a; lit ", service ID: "%string; hexw 4 svc; lit ", session ID: "%string; hexw 6 sid].
  (** src/net/arrow/session.rs:534-538 *)
  Definition rejected_rec (reason : list bytes) : jrec := say WARN (lit "unable to connect to a remote service: "%string :: reason).

  (** src/net/arrow/session.rs:595-633: the reason why a connection is not opened, or its address *)
  Definition connect_reason (g : mgr) (get : N -> option service) (svc sid : N) : list bytes + saddr :=
    match find_sess g sid with
    | Some _ => inl [lit "the session already exists; session ID: "%string; hexw 6 sid]
    | None =>
        match get svc with
        | None => inl [lit "unknown service ID: "%string; hexw 4 svc]
        | Some s =>
            match s_addr s with
            | None => inl [lit "there is no address for a given service; service ID: "%string; hexw 4 svc]
            | Some a =>
                if negb (g_gateway g) && negb (is_loopback (sa_ip a))
                then inl [lit "gateway mode disabled (service ID: "%string; hexw 4 svc; lit ")"%string]
                else inr a
            end
        end
    end.

  (** src/net/arrow/session.rs:687-724: what a poll writes; it follows the message that the poll returns *)
  Definition poll_rec (err : bytes) (o : mobs) : list jrec :=
    match o with
    | OMsg (EndOf sid code) _ => [(if code =? EC_NO_ERROR then closed_rec sid else error_rec sid err); hup_rec sid code]
    | _ => []
    end.

  (** What a step of the session manager writes; [err] is the text of the error of a session that ends in this step. The
      transport tasks write nothing. *)
  Definition mgr_log (g : mgr) (e : mev) (err : bytes) : list jrec :=
    match e with
    | MConnect get svc sid =>
        match connect_reason g get svc sid with
        | inr a => [opening_rec a svc sid]
        | inl r => [rejected_rec r; hup_rec sid EC_CONNECTION_ERROR]
        end
    | MSend m =>
        match find_sess g (m_session m) with
        | Some _ => []
        | None => [hup_rec (m_session m) EC_CONNECTION_ERROR]
        end
    | MClose sid => match find_sess g sid with Some _ => [closing_rec sid] | None => [] end
    | MPoll => List.concat (map (poll_rec err) (snd (mgr_poll g)))
    | MDataAck _ _ | MTransport _ _ | MIds _ => []
    end.

  (** src/net/arrow/session.rs:659-671: the end of the manager. The order of the sessions in the hash map is arbitrary. *)
  Definition drop_log (g : mgr) : list jrec := map (fun p => closing_rec (fst p)) (g_sessions g).

  (** A history with the texts of the errors *)
  Fixpoint mgr_journal (g : mgr) (es : list (mev * bytes)) : list jrec :=
    match es with
    | [] => []
    | (e, err) :: es' => mgr_log g e err ++ mgr_journal (fst (mgr_step g e)) es'
    end.
End Journal.

(** src/client.rs:94-98 *)
Definition attempt_rec (addr : bytes) : jrec := say INFO [lit "connecting to remote Arrow Service "%string; addr].
(** src/client.rs:123-127 *)
Definition refused_rec (addr : bytes) : jrec :=
  say INFO [lit "connection rejected by the remote service "%string; addr; lit "; is the client paired?"%string].
(** src/client.rs:131, src/net/arrow/error.rs:106-110 *)
Definition failed_rec (err : bytes) : jrec := say WARN [err].
(** src/client.rs:224-229: seconds and milliseconds of a duration given in nanoseconds, which is not negative *)
Definition retry_rec (d : Z) : jrec :=
  say INFO [lit "retrying in "%string; print_dec (Z.to_N (d / SEC)%Z); [46];
            fill 48 3 (print_dec (Z.to_N (d mod SEC / 1000000)%Z)); lit " seconds"%string].
(** src/client.rs:167-174 and 237-238 *)
Definition suspend_recs (k : ekind) : list jrec :=
  [say INFO [match k with UnsupportedProtocolVersion => lit "unsupported protocol version"%string | _ => lit "pairing window timeout"%string end];
   say INFO [lit "suspending the connection thread"%string]].

(** src/client.rs:115-148 and 221-245: what the processing of a result writes, with the beginning of the next attempt *)
Definition result_log (m : mtask) (r : cresult) (now : Z) (err : bytes) : list jrec :=
  if mt_diag m then []
  else
    match r with
    | Redirected addr => [attempt_rec addr]
    | Failed k =>
        (match k with Unauthorized => refused_rec (mt_current m) | _ => failed_rec err end) ::
        match process_connection_error k (mt_last m) (mt_pairing m) now with
        | RTimeout d => if (500000000 <? d)%Z then [retry_rec d] else [attempt_rec (mt_default m)]
        | RSuspend => suspend_recs k
        end
    end.

(** What a step of the main task writes; the records of the connection itself are left out. [err] is the text of the error
    if an attempt fails in this step. *)
Definition mtask_log (m : mtask) (e : mtev) (err : bytes) : list jrec :=
  match mt_phase m, e with
  | PTls, EvTls connector now _ => result_log m (Failed (if connector then OtherError else ConnectionError)) now err
  | POnline k, EvConn e now _ =>
      match k_result (fst (conn_step k e)) with
      | None => []
      | Some r => result_log m r now err
      end
  | PWait until, EvWake t => if (until <=? t)%Z then [attempt_rec (mt_current m)] else []
  | _, _ => []
  end.
Fixpoint mtask_journal (m : mtask) (es : list (mtev * bytes)) : list jrec :=
  match es with
  | [] => []
  | (e, err) :: es' => mtask_log m e err ++ mtask_journal (fst (mtask_step m e)) es'
  end.
(** A whole history: src/client.rs:64-91 *)
Definition main_journal (t0 t : Z) (addr : bytes) (diag : bool) (es : list (mtev * bytes)) : list jrec :=
  attempt_rec addr :: mtask_journal (fst (mtask_new t0 t addr diag)) es.
