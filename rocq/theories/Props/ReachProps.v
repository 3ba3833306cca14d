(** C120: a CONNECT reaches the service that was announced under its ID.

    A table starts as [t] (consistent, see C33 and C73) and goes through the operations [os]; whenever the
    connection looks at its table it sees one of the moments of this history, in any order. What the server knows
    is what an independent reader finds in the bytes of the client's messages. *)
From Coq Require Import NArith ZArith List Bool.
From Verif.Model Require Import Bytes Frame Service Control Alist SvcTable Session Manager Client Config.
From Verif.Spec Require Import ControlSpec ClientSpec TableSpec ConfigSpec ReachSpec.
From Verif.Proofs Require Import TableProofs TableCases ClientPropsPf2 ReachPf ReachCases.
Import ListNotations.
Local Open Scope N_scope.

(** Whatever the table went through since: the opened service has the type, MAC address and port that were
    announced in any REGISTER or UPDATE message of the connection under the ID of the CONNECT. *)
Theorem C120_connect :
  forall (hash : ident -> N) (t : table) (os : list top) (t0 : Z) (i : identity) (v1 v2 : view) (es : list kev)
         (k : conn) (h h1 h2 : list cobs) (sid : N) (ty : svc_type) (mac : N) (a : saddr),
    consistent t -> built_ops os -> (forall id s, stored t id = Some s -> plain s) ->
    (forall now s, In (now, s) (adds os) -> plain s) -> wf_identity i ->
    (exists t1, moment hash t os t1 /\ v1 = view_of t1) -> Forall (looks_at (moment hash t os)) es ->
    connection t0 i v1 v2 es = (k, h) -> bytes_received h -> h = h1 ++ XMgr (OOpen sid ty mac a) :: h2 ->
    exists h0 e m id svc, h1 = h0 ++ [XRecv e m] /\
      server_says m {| cm_id := id; cm_type := 13; cm_body := BConnect svc sid |} /\
      forall x, learnt announced_as h x -> e_id x = svc -> e_type x = svc_code ty /\ e_mac x = mac /\ e_port x = sa_port a.
Proof. exact connect_reaches. Qed.
Print Assumptions C120_connect.

(** The address is the one the service was last seen at. *)
Theorem C120_newest :
  forall (hash : ident -> N) (t : table) (os : list top) (t0 : Z) (i : identity) (v1 v2 : view) (es : list kev)
         (k : conn) (h h1 h2 : list cobs) (sid : N) (ty : svc_type) (mac : N) (a : saddr),
    consistent t -> built_ops os -> Forall (looks_at (moment hash t os)) es ->
    connection t0 i v1 v2 es = (k, h) -> bytes_received h -> h = h1 ++ XMgr (OOpen sid ty mac a) :: h2 ->
    exists h0 e m id svc os1 os2 now s, h1 = h0 ++ [XRecv e m] /\
      server_says m {| cm_id := id; cm_type := 13; cm_body := BConnect svc sid |} /\
      os = os1 ++ os2 /\ tbl_run hash t os1 = ROk now /\ e_table e = view_of now /\
      last_service (to_ident s) (adds os1) (stored t svc) = Some s /\ s_addr s = Some a /\ s_type s = ty.
Proof. exact connect_newest. Qed.
Print Assumptions C120_newest.

(** The device moved from address 11 to 99 after it was announced; its ID still leads to it. *)
Example C120_case :
  exists k h, connection 0 race_id (view_of (after 2)) (view_of (after 2)) reach_events = (k, h) /\
    Forall (looks_at (moment hash0 (table_new 0) opsA)) reach_events /\ wf_identity race_id /\ bytes_received h /\
    (forall now s, In (now, s) (adds opsA) -> plain s) /\
    learnt announced_as h (announce (1, dev 11)) /\
    exists h1 h2, h = h1 ++ XMgr (OOpen 7 TCP 11 {| sa_ip := V4 99; sa_port := 80 |}) :: h2.
Proof. exact reach_case. Qed.

(** The same for the IDs in scan reports, as long as they are taken from the connection's own table. *)
Theorem C120_report_partial :
  forall (hash : ident -> N) (t : table) (os : list top) (t0 : Z) (i : identity) (v1 v2 : view) (es : list kev)
         (k : conn) (h h1 h2 : list cobs) (sid : N) (ty : svc_type) (mac : N) (a : saddr),
    consistent t -> built_ops os -> Forall (looks_at (moment hash t os)) es -> Forall (reports_of (moment hash t os)) es ->
    connection t0 i v1 v2 es = (k, h) -> bytes_received h -> h = h1 ++ XMgr (OOpen sid ty mac a) :: h2 ->
    exists h0 e m id svc, h1 = h0 ++ [XRecv e m] /\
      server_says m {| cm_id := id; cm_type := 13; cm_body := BConnect svc sid |} /\
      forall x, learnt reported_as h x -> e_id x = svc -> e_type x = svc_code ty /\ e_mac x = mac /\ e_port x = sa_port a.
Proof. exact report_reaches. Qed.
Print Assumptions C120_report_partial.

(** After a reset of the table they are not: the report takes the IDs from the new table [cur], CONNECT looks them
    up in the old one [own]. Here the server asks for a service it read in a report and is connected to another
    device at another address. *)
Theorem C120_report_refuted :
  exists (hash : ident -> N) (c : config) (own cur : table) (i : identity) (es : list kev) (k : conn) (h h1 h2 : list cobs)
         (e : env) (m : amsg) (sid : N) (ty : svc_type) (mac : N) (a : saddr) (x : entry) (id : N),
    current c = Some own /\
    (exists l now, current (cfg_run hash c [CReset; CScan l now]) = Some cur /\
       cell (cfg_run hash c [CReset; CScan l now]) (get_service_table c) = Some own) /\
    (forall t en mm items, In (KPoll items) es -> In (SMsg t en mm) items ->
       e_table en = view_of own /\ exists tb, (tb = own \/ tb = cur) /\ forall ki, tbl_get_id tb ki = ROk (e_get_id en ki)) /\
    connection 0 i (view_of own) (view_of own) es = (k, h) /\
    h = h1 ++ XRecv e m :: XMgr (OOpen sid ty mac a) :: h2 /\
    server_says m {| cm_id := id; cm_type := 13; cm_body := BConnect (e_id x) sid |} /\
    learnt reported_as h x /\ (e_mac x <> mac /\ e_ip x <> Some (sa_ip a)).
Proof. exact report_after_reset. Qed.
Print Assumptions C120_report_refuted.
