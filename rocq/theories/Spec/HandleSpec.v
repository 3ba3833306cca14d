(** What the header of the C interface (include/arrow_client.h) says about ownership, and what a sequence of calls
    asked for. *)
From Coq Require Import NArith List Bool.
From Verif.Model Require Import Bytes Utf8 Alist Handles.
Import ListNotations.
Local Open Scope N_scope.

(** What a program holds. *)
Inductive kind := KLogger | KConfig | KCustom | KDefault | KStorage | KClient | KJoin | KTable (n : N).
Definition ledger := list (N * kind).

(** How the comments are read: as they are, or with the three amendments needed: setting the logger of a default
    storage takes the logger; a null pointer is no object; strings are UTF-8. *)
Inductive reading := AsWritten | Amended.
Definition amended (m : reading) : bool := match m with Amended => true | AsWritten => false end.

(** The objects a call needs and leaves to the program ... *)
Definition uses (m : reading) (c : call) : list (N * kind) :=
  match c with
  | LoggerClone p => [(p, KLogger)]
  | ConfigLogger p _ | ConfigMac p _ | ConfigDiag p _ | ConfigDiscovery p _ | ConfigVerbose p _ => [(p, KConfig)]
  | CustomSet p _ _ => [(p, KCustom)]
  | DefaultSet p _ _ | DefaultCert p _ => [(p, KDefault)]
  | DefaultLogger p q => if amended m then [(p, KDefault)] else [(p, KDefault); (q, KLogger)]
  | ClientStart p | ClientStartBlocking p | ClientUse p | ClientTable p _ => [(p, KClient)]
  | _ => []
  end.
(** ... those it takes from the program (or frees) ... *)
Definition takes (m : reading) (c : call) : list (N * kind) :=
  match c with
  | LoggerFree p => [(p, KLogger)]
  | ConfigFree p => [(p, KConfig)]
  | ConfigLogger _ q => [(q, KLogger)]
  | CustomFree p | CustomBuild p => [(p, KCustom)]
  | DefaultFree p | DefaultBuild p => [(p, KDefault)]
  | DefaultLogger _ q => if amended m then [(q, KLogger)] else []
  | StorageFree p => [(p, KStorage)]
  | ClientNew c s _ _ => [(c, KConfig); (s, KStorage)]
  | ClientFree p => [(p, KClient)]
  | JoinFree p | JoinJoin p => [(p, KJoin)]
  | _ => []
  end.
(** ... and the one it gives to it. *)
Definition gives (c : call) : option kind :=
  match c with
  | LoggerNew _ | LoggerFile _ _ | LoggerClone _ => Some KLogger
  | ConfigNew => Some KConfig
  | CustomNew _ => Some KCustom
  | DefaultNew _ _ _ => Some KDefault
  | CustomBuild _ | DefaultBuild _ => Some KStorage
  | ClientNew _ _ _ _ => Some KClient
  | ClientStart _ => Some KJoin
  | ClientTable _ n => Some (KTable n)
  | _ => None
  end.
(** Calls that are said to return NULL if they fail. *)
Definition says_null (m : reading) (c : call) : bool :=
  match c with LoggerFile _ _ | DefaultNew _ _ _ => true | _ => amended m end.

(** The strings of a call. *)
Definition strings (c : call) : list bytes :=
  match c with
  | LoggerFile s _ | DefaultCert _ s | DefaultSet _ _ (Some s) | ClientNew _ _ s _ => [s]
  | DefaultNew s None _ => [s]
  | DefaultNew s (Some t) _ => [s; t]
  | _ => []
  end.

(** Tables are freed, counted and looked into by their own rules: the index is below the number of services. *)
Definition table_ok (l : ledger) (c : call) : Prop :=
  match c with
  | TableFree p | TableCount p => exists n, In (p, KTable n) l
  | ServiceUse p i => exists n, In (p, KTable n) l /\ i < n
  | _ => True
  end.

Definition allowed (m : reading) (l : ledger) (c : call) : Prop :=
  incl (uses m c) l /\ incl (takes m c) l /\ NoDup (map fst (takes m c)) /\ table_ok l c /\
  (m = Amended -> Forall (fun s => utf8_valid s = true) (strings c)).

Definition lost (m : reading) (c : call) : list N :=
  map fst (takes m c) ++ match c with TableFree p => [p] | _ => [] end.
Definition after_call (m : reading) (l : ledger) (c : call) (r : N) : ledger :=
  let l' := filter (fun x => negb (existsb (N.eqb (fst x)) (lost m c))) l in
  match gives c with
  | Some k => if says_null m c && (r =? 0) then l' else (r, k) :: l'
  | None => l'
  end.

(** A program with the calls [cs] (the results are [rs], as far as it got) keeps to the rules. *)
Fixpoint obeys (m : reading) (l : ledger) (cs : list call) (rs : list N) : Prop :=
  match cs with
  | [] => True
  | c :: cs' => allowed m l c /\ match rs with [] => True | r :: rs' => obeys m (after_call m l c r) cs' rs' end
  end.
(** What it holds in the end. *)
Fixpoint holds (m : reading) (l : ledger) (cs : list call) (rs : list N) : ledger :=
  match cs, rs with
  | c :: cs', r :: rs' => holds m (after_call m l c r) cs' rs'
  | _, _ => l
  end.

(** What is there is what the program holds. *)
Definition kind_of (o : object) : kind :=
  match o with
  | BLogger _ => KLogger
  | BConfig _ => KConfig
  | BCustom _ => KCustom
  | BDefault _ => KDefault
  | BStorage _ => KStorage
  | BClient _ => KClient
  | BJoin => KJoin
  | BTable n => KTable n
  end.
Definition tied (l : ledger) (b : boxes) : Prop :=
  forall p k, In (p, k) l <-> exists o, alookup p b = Some o /\ kind_of o = k.

(** An allocator: a new block is not one of those in use and not at address 0. *)
Definition allocator (fresh : N -> list N -> N) : Prop := forall n l, fresh n l <> 0 /\ ~ In (fresh n l) l.

(** ** What was asked for

    Histories of calls with their results, newest first. *)
Definition asked := list (call * N).

Fixpoint logger_of (p : N) (h : asked) : option logger :=
  match h with
  | [] => None
  | (LoggerNew l, r) :: h' | (LoggerFile _ (Some l), r) :: h' => if r =? p then Some l else logger_of p h'
  | (LoggerClone q, r) :: h' => if r =? p then logger_of q h' else logger_of p h'
  | _ :: h' => logger_of p h'
  end.
(** The last value set since the config was made, or [d]. *)
Fixpoint conf_value {A} (f : call -> N -> asked -> option A) (d : A) (p : N) (h : asked) : A :=
  match h with
  | [] => d
  | (ConfigNew, r) :: h' => if r =? p then d else conf_value f d p h'
  | (c, _) :: h' => match f c p h' with Some v => v | None => conf_value f d p h' end
  end.
Definition mac_of := conf_value (fun c p _ => match c with ConfigMac q m => if q =? p then Some m else None | _ => None end) None.
Definition diag_of := conf_value (fun c p _ => match c with ConfigDiag q v => if q =? p then Some v else None | _ => None end) false.
Definition discovery_of :=
  conf_value (fun c p _ => match c with ConfigDiscovery q v => if q =? p then Some v else None | _ => None end) false.
Definition verbose_of :=
  conf_value (fun c p _ => match c with ConfigVerbose q v => if q =? p then Some v else None | _ => None end) false.
Definition conf_logger_of :=
  conf_value (fun c p h => match c with ConfigLogger q l => if q =? p then Some (logger_of l h) else None | _ => None end) None.

Fixpoint opaque_of (p : N) (h : asked) : option N :=
  match h with
  | [] => None
  | (CustomNew o, r) :: h' => if r =? p then Some o else opaque_of p h'
  | _ :: h' => opaque_of p h'
  end.
Definition same_func (a b : func) : {a = b} + {a <> b}.
Proof. decide equality. Defined.
Definition same_file (a b : file) : {a = b} + {a <> b}.
Proof. decide equality. Defined.
Fixpoint func_of (f : func) (p : N) (h : asked) : option N :=
  match h with
  | [] => None
  | (CustomNew _, r) :: h' => if r =? p then None else func_of f p h'
  | (CustomSet q g v, _) :: h' => if q =? p then if same_func f g then Some v else func_of f p h' else func_of f p h'
  | _ :: h' => func_of f p h'
  end.
Fixpoint conf_file_of (p : N) (h : asked) : option (bytes * option bytes) :=
  match h with
  | [] => None
  | (DefaultNew s t _, r) :: h' => if r =? p then Some (s, t) else conf_file_of p h'
  | _ :: h' => conf_file_of p h'
  end.
Fixpoint file_of (f : file) (p : N) (h : asked) : option bytes :=
  match h with
  | [] => None
  | (DefaultNew _ _ _, r) :: h' => if r =? p then None else file_of f p h'
  | (DefaultSet q g v, _) :: h' => if q =? p then if same_file f g then v else file_of f p h' else file_of f p h'
  | _ :: h' => file_of f p h'
  end.
Fixpoint certs_of (p : N) (h : asked) : list bytes :=
  match h with
  | [] => []
  | (DefaultNew _ _ _, r) :: h' => if r =? p then [] else certs_of p h'
  | (DefaultCert q s, _) :: h' => if q =? p then certs_of p h' ++ [s] else certs_of p h'
  | _ :: h' => certs_of p h'
  end.
Fixpoint storage_logger_of (p : N) (h : asked) : option logger :=
  match h with
  | [] => None
  | (DefaultNew _ _ _, r) :: h' => if r =? p then None else storage_logger_of p h'
  | (DefaultLogger q l, _) :: h' => if q =? p then logger_of l h' else storage_logger_of p h'
  | _ :: h' => storage_logger_of p h'
  end.

Definition conf_as_asked (h : asked) (p : N) (c : cconf) : Prop :=
  cc_logger c = conf_logger_of p h /\ cc_mac c = mac_of p h /\ cc_diag c = diag_of p h /\
  cc_discovery c = discovery_of p h /\ cc_verbose c = verbose_of p h.
Definition custom_as_asked (h : asked) (p : N) (c : ccustom) : Prop :=
  opaque_of p h = Some (cu_opaque c) /\ forall f, cu_funcs c f = func_of f p h.
Definition default_as_asked (h : asked) (p : N) (d : cdefault) : Prop :=
  conf_file_of p h = Some (de_config d, de_lock d) /\ (forall f, de_files d f = file_of f p h) /\
  de_certs d = certs_of p h /\ de_logger d = storage_logger_of p h.
(** A storage is what its builder was when it was built. *)
Fixpoint storage_as_asked (h : asked) (p : N) (s : cstorage) : Prop :=
  match h with
  | [] => False
  | (CustomBuild q, r) :: h' =>
      if r =? p then match s with SCustom c => custom_as_asked h' q c | SDefault _ => False end else storage_as_asked h' p s
  | (DefaultBuild q, r) :: h' =>
      if r =? p then match s with SDefault d => default_as_asked h' q d | SCustom _ => False end else storage_as_asked h' p s
  | _ :: h' => storage_as_asked h' p s
  end.
(** A client has the configuration and the storage it was made with, as they were then, and has a task until it
    is started. *)
Fixpoint client_as_asked (h : asked) (p : N) (c : cclient) : Prop :=
  match h with
  | [] => False
  | (ClientNew x y addr true, r) :: h' =>
      if r =? p then conf_as_asked h' x (cl_conf c) /\ storage_as_asked h' y (cl_storage c) /\ cl_addr c = addr
      else client_as_asked h' p c
  | _ :: h' => client_as_asked h' p c
  end.
Definition as_asked (h : asked) (p : N) (o : object) : Prop :=
  match o with
  | BLogger l => logger_of p h = Some l
  | BConfig c => conf_as_asked h p c
  | BCustom c => custom_as_asked h p c
  | BDefault d => default_as_asked h p d
  | BStorage s => storage_as_asked h p s
  | BClient c => client_as_asked h p c
  | BJoin | BTable _ => True
  end.
