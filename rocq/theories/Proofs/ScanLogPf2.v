(** Cases for the records of the scans. *)
From Coq Require Import String NArith ZArith List Bool Lia.
From Verif.Model Require Import Bytes Text Service Alist SvcTable TableJson JsonText Background Logger Journal ScanLog.
From Verif.Spec Require Import NumeralSpec TableSpec ClientSpec BackgroundSpec JsonSpec ScanLogSpec.
From Verif.Proofs Require Import TableProofs ScanLogPf.
Import ListNotations.
Local Open Scope N_scope.

Definition ex_addr (a : saddr) : bytes := print_dec (sa_port a).
Definition ex_read (_ : bytes) : option saddr := Some {| sa_ip := V4 7; sa_port := 80 |}.
Definition ex_cam : service := svc_mjpeg 7 {| sa_ip := V4 7; sa_port := 80 |} (lit "/a"%string ++ [10]).
Definition ex_table : table :=
  match tbl_run (fun k => 1) (table_new 0) [TAdd 5 ex_cam] with ROk t => t | _ => table_new 0 end.
Definition ex_none : scan_end := ScanFailed [].
Definition ex_scanned : list (bev * scan_end) :=
  [(EvApi CScan, ex_none); (EvHandle 1, ex_none); (EvThread 0 SBegin, ex_none); (EvThread 0 SFinish, ScanFailed (lit "no device"%string));
   (EvThread 0 (SReport 2), ex_none); (EvHandle 3, ex_none); (EvApi CScan, ex_none); (EvHandle 4, ex_none); (EvThread 1 SBegin, ex_none);
   (EvThread 1 SFinish, ScanFound [ex_cam] ex_table)]%Z.

Lemma case_ok :
  map j_text (scan_journal ex_addr true true ex_scanned) =
  [lit "looking for local services..."%string; lit "network scanner error (no device)"%string; lit "looking for local services..."%string;
   lit "1 services found, current service table: {""services"":[{""id"":1,""svc_type"":6,""mac"":""00:00:00:00:00:07"",""address"":""80"",""path"":""/a\n"",""static_svc"":false,""last_seen"":5,""active"":true}]}"%string] /\
  ascending 0 (clock (map fst ex_scanned)) /\
  consistent ex_table /\ (forall id s, stored ex_table id = Some s -> svc_is_control s = false -> savable ex_addr ex_read s).
Proof.
  split; [vm_compute; reflexivity|]. split; [cbn; lia|]. split.
  - assert (B : built_ops [TAdd 5 ex_cam]) by repeat constructor.
    assert (L : nlen (identities [TAdd 5 ex_cam]) <= 65535) by (vm_compute; discriminate).
    destruct (new_run_ok (fun k => 1) 0 _ B L) as (t & E & C). unfold ex_table. now rewrite E.
  - intros id s. assert (E : ex_table = ltac:(let t := eval vm_compute in ex_table in exact t)) by (vm_compute; reflexivity).
    unfold stored. rewrite E. cbn [t_map alookup].
    repeat (destruct (N.eqb id _); [intros [= <-] X; try discriminate X; repeat split; try (intros [Y|Y]; discriminate Y); intros m [= <-]; reflexivity|]).
    discriminate.
Qed.

Lemma unwarned :
  (forall (aprint : saddr -> bytes) (f d : bool) (es : list (bev * scan_end)) (t0 : Z),
    ascending t0 (clock (map fst es)) -> Forall (fun r => j_text r <> WARNING) (scan_journal aprint f d es)) /\
  exists es, ascending 0 (clock es) /\ crashed (snd (background true true es)) = true.
Proof.
  split; [exact never_warned|]. exists [EvApi CScan; EvHandle 1; EvThread 0 SBegin; EvThread 0 SPanic]%Z. split; [cbn; lia|reflexivity].
Qed.
