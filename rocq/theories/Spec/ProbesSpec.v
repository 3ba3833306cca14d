(** Vocabulary of the properties about the probes of a scan in time. *)
From Coq Require Import String NArith List Bool.
From Verif.Model Require Import Bytes Service Control Http Sdp Discovery Probes.
Import ListNotations.
Local Open Scope N_scope.

(** What the client gets of a response: nothing of those that take more than two seconds *)
Definition cut {A} (r : reply A) : option A :=
  match r with Some (t, x) => if 2000 <? t then None else x | None => None end.
Definition some {A} (x : option A) : bool := match x with Some _ => true | None => false end.

(** Devices whose answers do not depend on the time of the request *)
Definition steady {A B} (f : N -> A -> B) : Prop := forall now a, f now a = f 0 a.

(** A request that costs two seconds and gives nothing: there is no answer, it comes too late, or it comes at the last moment and
    says that there is nothing here. *)
Definition wasted {A} (code : A -> N) (r : reply A) : Prop :=
  match r with None => True | Some (t, x) => 2000 < t \/ t = 2000 /\ exists y, x = Some y /\ code y = 404 end.
(** A device that looks like a camera and wastes every request for a stream *)
Record tarpit (describe : N -> saddr -> bytes -> reply (rheader * bytes)) (get_header : N -> saddr -> bytes -> reply rheader)
  (options : N -> saddr -> reply unit) (i : ip) : Prop := {
  tp_options : forall now a, sa_ip a = i -> options now a = Some (2000, Some tt);
  tp_describe : forall now a p, sa_ip a = i -> wasted (fun x => rh_code (fst x)) (describe now a p);
  tp_get : forall now a p, sa_ip a = i -> wasted rh_code (get_header now a p);
  tp_root : forall now a, sa_ip a = i -> exists h, get_header now a [47] = Some (2000, Some h)
}.
