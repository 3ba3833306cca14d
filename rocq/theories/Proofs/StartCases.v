(** Concrete starts. *)
From Coq Require Import String NArith ZArith List Bool.
From Verif.Model Require Import Bytes Service SvcTable TableJson Config JsonText Start.
From Verif.Spec Require Import JsonSpec StartSpec.
From Verif.Proofs Require Import TableCases ConfigCases StartPf.
Import ListNotations.
Local Open Scope N_scope.
Local Open Scope list_scope.

Definition ex_paths : paths :=
  {| ph_lock := Some (lit "lock"); ph_log := None; ph_config := lit "config"; ph_skel := lit "skel"; ph_identity := Some (lit "id");
     ph_rtsp := lit "rtsp"; ph_mjpeg := lit "mjpeg" |}.
Definition ex_luck : luck :=
  {| lk_create := true; lk_lock := true; lk_log := true; lk_skel := FAll; lk_ident := FAll; lk_mac := true; lk_save := FAll; lk_fresh := (1, 2); lk_now := 0 |}.
(** The skeleton cannot be written and there is no network interface yet. *)
Definition ex_luck1 : luck :=
  {| lk_create := true; lk_lock := true; lk_log := true; lk_skel := FNone; lk_ident := FAll; lk_mac := false; lk_save := FAll; lk_fresh := (1, 2); lk_now := 0 |}.
Definition ex_luck2 : luck :=
  {| lk_create := true; lk_lock := true; lk_log := true; lk_skel := FNone; lk_ident := FNone; lk_mac := true; lk_save := FAll; lk_fresh := (3, 4); lk_now := 1 |}.
Definition no_files : fs := fun _ => None.
Definition ex_start := start hash0 enc dec one unone jread.

Lemma stale_identity :
  exists (hash : ident -> N) (aprint : saddr -> bytes) (aparse : bytes -> option saddr) (uprint : N -> bytes) (uparse : bytes -> option N)
         (ph : paths) (lk1 lk2 : luck) (q : bytes) (u : N) (c : config),
    (forall u, uparse (uprint u) = Some u) /\ (forall x, aparse (aprint x) = Some x) /\ distinct_paths ph /\ ph_identity ph = Some q /\
    let s := start hash aprint aparse uprint uparse jread in
    let f1 := apply_ops no_files (fst (s ph lk1 [] false no_files)) in
    snd (s ph lk2 [] false f1) = ROk c /\
    apply_ops f1 (fst (s ph lk2 [] false f1)) q = Some (jdump (identity_doc uprint u)) /\ g_uuid c <> u.
Proof.
  exists hash0, enc, dec, one, unone, ex_paths, ex_luck1, ex_luck2, (lit "id"), 1.
  eexists. split; [intros; reflexivity|]. split; [apply dec_enc|]. split.
  { unfold distinct_paths. repeat (constructor; [vm_compute; intuition discriminate|]). constructor. }
  split; [reflexivity|]. cbv zeta. split; [vm_compute; reflexivity|]. split; [vm_compute; reflexivity|]. vm_compute. discriminate.
Qed.
