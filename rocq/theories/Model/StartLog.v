(** What the start of the client writes to the log. The functions follow those of Model/Start.v. File names are taken to be UTF-8
    (`to_string_lossy` changes others). *)
From Coq Require Import String NArith ZArith List Bool.
From Verif.Model Require Import Bytes Text Service Alist SvcTable TableJson Config JsonText Mac Storage Start Logger Journal ScanLog.
Import ListNotations.
Local Open Scope N_scope.
Local Open Scope list_scope.

(** The texts of the errors: of reading the skeleton and the configuration file, of creating the skeleton and the identity file, of
    loading the two path files *)
Record texts := { tx_skel : bytes; tx_config : bytes; tx_create : bytes; tx_ident : bytes; tx_rtsp : bytes; tx_mjpeg : bytes }.

(** src/storage.rs:255-262, 270-275, 298-305, 312-320: the message with the name of the file *)
Definition named (what file : bytes) : bytes := what ++ lit " """%string ++ file ++ lit """"%string.
(** src/storage.rs:447-469: the fate of a file that is saved *)
Definition saved (x : fate) (err : bytes) : unit + bytes := match x with FAll => inl tt | _ => inr err end.
(** The result of reading a file *)
Definition loaded {A : Type} (r : result A) (err : bytes) : A + bytes := match r with ROk a => inl a | _ => inr err end.

Section StartLog.
  Variable hash : ident -> N.
  Variable aprint : saddr -> bytes.
  Variable aparse : bytes -> option saddr.
  Variable uprint : N -> bytes.
  Variable uparse : bytes -> option N.
  Variable jparse : bytes -> option json.

  (** src/storage.rs:251-326, `load_configuration`, from the files [f] *)
  Definition load_log (ph : paths) (lk : luck) (tx : texts) (f : fs) : list jrec :=
    match read_config aparse uparse jparse (lk_now lk) (f (ph_skel ph)) with
    | RPanic => []
    | s =>
        let '(skeleton, l1) := result_or_log WARN (named (lit "unable to read configuration file skeleton"%string) (ph_skel ph)) (loaded s (tx_skel tx)) in
        match read_config aparse uparse jparse (lk_now lk) (f (ph_config ph)) with
        | RPanic => l1
        | r =>
            let '(_, l2) := result_or_log WARN (named (lit "unable to read configuration file"%string) (ph_config ph)) (loaded r (tx_config tx)) in
            l1 ++ l2 ++
            match skeleton with
            | Some _ => []
            | None =>
                say INFO [named (lit "creating configuration file skeleton"%string) (ph_skel ph)] ::
                snd (result_or_log WARN (named (lit "unable to create configuration file skeleton"%string) (ph_skel ph)) (saved (lk_skel lk) (tx_create tx)))
            end ++
            match ph_identity ph with
            | Some q => snd (result_or_log WARN (named (lit "unable to create identity file"%string) q) (saved (lk_ident lk) (tx_ident tx)))
            | None => []
            end
        end
    end.

  (** src/config.rs:276-288 *)
  Definition path_log (what : bytes) (d : option bytes) (err : bytes) : list jrec :=
    snd (result_or_log WARN what (match load_paths_file d with Some l => inl l | None => inr err end)).

  (** src/client.rs:333-338: the first thing the task of the client does *)
  Definition started_rec (uuid mac : N) : jrec :=
    say INFO [lit "Arrow Client started (uuid: "%string; uprint uuid; lit ", mac: "%string; mac_print mac; lit ")"%string].

  (** src/config.rs:252-324 and 432-479, and the beginning of the task; [mac] is the MAC address in use. A start that fails writes its
      error to the standard error output, not to the log. *)
  Definition start_log (ph : paths) (lk : luck) (tx : texts) (mac : N) (services : list (Z * service)) (flash : bool) (f : fs) : list jrec :=
    let '(o1, ok1) := take_lock ph lk in
    if negb ok1 then []
    else
      let '(o2, ok2) := open_log ph lk in
      if negb ok2 then []
      else
        let f1 := apply_ops f (o1 ++ o2) in
        let '(o3, r) := load_ops aprint aparse uprint uparse jparse ph lk f1 in
        let l3 := load_log ph lk tx f1 in
        match r with
        | RErr | RPanic => l3
        | ROk p =>
            if negb (lk_mac lk) then l3
            else
              let f2 := apply_ops f1 o3 in
              let l4 := path_log (lit "unable to load RTSP paths"%string) (f2 (ph_rtsp ph)) (tx_rtsp tx) ++
                        path_log (lit "unable to load MJPEG paths"%string) (f2 (ph_mjpeg ph)) (tx_mjpeg tx) in
              match build_config hash p services flash with
              | RErr | RPanic => l3 ++ l4
              | ROk c => l3 ++ l4 ++ match lk_save lk with FAll => [started_rec (g_uuid c) mac] | _ => [] end
              end
        end.
End StartLog.
