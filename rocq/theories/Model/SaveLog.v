(** What a running client writes to the log when its configuration is saved. *)
From Coq Require Import String NArith ZArith List Bool.
From Verif.Model Require Import Bytes Service SvcTable TableJson Config Logger Journal.
Import ListNotations.
Local Open Scope N_scope.
Local Open Scope list_scope.

(** src/config.rs:1079, 1110 with 1143-1152 and src/storage.rs:238-249; [path] is the configuration file, [err] the text of the error *)
Definition save_rec (path err : bytes) : jrec :=
  say WARN [lit "unable to save client configuration: "%string; lit "unable to create configuration file """%string; path;
            lit """: "%string; err].
Definition save_result (path err : bytes) (w : wres) : list jrec := match w with Wrote => [] | _ => [save_rec path err] end.

Section SaveLog.
  Variable hash : ident -> N.
  Variable aprint : saddr -> bytes.
  Variable aparse : bytes -> option saddr.
  Variable uprint : N -> bytes.
  Variable uparse : bytes -> option N.
  Variable path : bytes.

  (** src/config.rs:1071-1112: the records of one event of Model/Config.v; those of a start are in Model/StartLog.v *)
  Definition save_log (s : world) (e : wevent) (err : bytes) : list jrec :=
    match e, w_app s with
    | WScan services now w, Some c =>
        match cfg_update hash c services now with
        | ROk (_, Some _) => save_result path err w
        | _ => []
        end
    | WReset w, Some _ => save_result path err w
    | _, _ => []
    end.
  Fixpoint saves_log (use_skeleton flash : bool) (s : world) (es : list (wevent * bytes)) : list jrec :=
    match es with
    | [] => []
    | (e, err) :: es' =>
        save_log s e err ++ saves_log use_skeleton flash (fst (world_step hash aprint aparse uprint uparse use_skeleton flash s e)) es'
    end.
End SaveLog.
