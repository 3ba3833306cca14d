(** Statements about the C interface. *)
From Coq Require Import NArith List Bool.
From Verif.Model Require Import Bytes Utf8 Service SvcTable Logger Exports.
From Verif.Spec Require LoggerSpec.
Import ListNotations.
Local Open Scope N_scope.

(** ** Memory *)

Definition apart (a b : N * N) : Prop := fst a + snd a <= fst b \/ fst b + snd b <= fst a.
(** The allocator gives blocks that do not overlap others and end within the address space, or null. *)
Definition sane_alloc (fresh : mem -> N -> N) : Prop :=
  forall m n, fresh m n = 0 \/ (fresh m n + n <= 2 ^ 64 /\ Forall (apart (fresh m n, n)) (m_blocks m)).

(** What a program in C does with the memory: allocate, free, write. It keeps a list of what it allocated: address and size. *)
Inductive c_op := CMalloc (n : N) | CFree (p : N) | CStore (a : N) (d : bytes).
Record c_state := { c_mem : mem; c_live : list (N * N) }.
Definition drop (p : N) (l : list (N * N)) : list (N * N) := filter (fun x => negb (fst x =? p)) l.
Section Program.
  Variable ovf : bool.
  Variable fresh : mem -> N -> N.
  (** [None]: undefined behaviour or a panic *)
  Definition c_step (o : c_op) (s : c_state) : option c_state :=
    match o with
    | CMalloc n => match ac_malloc ovf fresh n (c_mem s) with
                   | Val p m => Some {| c_mem := m; c_live := (p, n) :: c_live s |}
                   | _ => None
                   end
    | CFree p => match ac_free p (c_mem s) with
                 | Val _ m => Some {| c_mem := m; c_live := drop p (c_live s) |}
                 | _ => None
                 end
    | CStore a d => match write_mem a d (c_mem s) with
                    | Val _ m => Some {| c_mem := m; c_live := c_live s |}
                    | _ => None
                    end
    end.
  Fixpoint c_run (l : list c_op) (s : c_state) : option c_state :=
    match l with
    | [] => Some s
    | o :: r => match c_step o s with Some s' => c_run r s' | None => None end
    end.
  (** The program frees only what it allocated and did not free, it writes only there, and it does not run out of memory. *)
  Definition c_legal (o : c_op) (s : c_state) : Prop :=
    match o with
    | CMalloc n => n + 16 < 2 ^ 63 /\ fresh (c_mem s) (n + 16) <> 0
    | CFree p => exists n, In (p, n) (c_live s)
    | CStore a d => exists p n, In (p, n) (c_live s) /\ p <= a /\ a + nlen d <= p + n
    end.
  Fixpoint c_legal_run (l : list c_op) (s : c_state) : Prop :=
    match l with
    | [] => True
    | o :: r => c_legal o s /\ match c_step o s with Some s' => c_legal_run r s' | None => True end
    end.
End Program.
(** The block behind an allocation *)
Definition behind (x : N * N) : N * N := (fst x - 16, snd x + 16).
(** [s] has grown from memory with the blocks [base]: all allocations are there, each with its header. *)
Record c_sound (base : list (N * N)) (s : c_state) : Prop := {
  cs_blocks : m_blocks (c_mem s) = map behind (c_live s) ++ base;
  cs_apart : ForallOrdPairs apart (m_blocks (c_mem s));
  cs_keys : NoDup (map fst (c_live s));
  cs_live : Forall (fun x => 16 <= fst x /\ snd x + 16 < 2 ^ 63 /\
                             load (c_mem s) (fst x - 16) 16 = to_be 8 (snd x + 16) ++ to_be 8 1) (c_live s) }.

(** ** Custom storage *)

(** A string in an allocation of the program *)
Definition string_at (s : c_state) (p : N) (t : bytes) : Prop :=
  exists n, In (p, n) (c_live s) /\ nlen t + 1 <= n /\ load (c_mem s) p (nlen t + 1) = t ++ [0] /\ ~ In 0 t.
(** An array of pointers in an allocation of the program *)
Definition array_at (s : c_state) (p : N) (ps : list N) : Prop :=
  exists n, In (p, n) (c_live s) /\ 8 * nlen ps <= n /\ load (c_mem s) p (8 * nlen ps) = List.concat (map (to_be 8) ps) /\
            Forall (fun q => q < 2 ^ 64) ps.
Definition drops (ps : list N) (l : list (N * N)) : list (N * N) := fold_right drop l ps.

(** ** Service table *)

Definition complete (s : service) : Prop := s_mac s <> None /\ s_addr s <> None.
(** The record of a service in C *)
Definition exported (id : N) (s : service) (v : native) : Prop :=
  nv_id v = id /\ nv_type v = svc_code (s_type s) /\ s_mac s = Some (nv_mac v) /\
  s_addr s = Some {| sa_ip := nv_ip v; sa_port := nv_port v |} /\ nv_path v = s_path s.

(** ** The client and its logger *)

(** Starts of the client: whether each one ran the task *)
Fixpoint after_starts (n : nat) (c : nclient) : nclient := match n with O => c | S k => after_starts k (fst (start_client c)) end.
Fixpoint starts (n : nat) (c : nclient) : list bool :=
  match n with O => [] | S k => let '(c', b) := start_client c in b :: starts k c' end.
(** A line to log *)
Record lline := { l_file : bytes; l_num : N; l_sev : severity; l_msg : bytes }.
(** The arguments of the callback *)
Definition as_call (l : lline) : bytes * N * N * bytes := (l_file l, l_num l, LoggerSpec.sev_code (l_sev l), l_msg l).
(** Logging one line after another; the list tells which calls returned *)
Fixpoint cb_logs (l : list lline) (c : cblog) : cblog * list bool :=
  match l with
  | [] => (c, [])
  | x :: r => let '(c1, b) := cb_log (l_file x) (l_num x) (l_sev x) (l_msg x) c in let '(c2, bs) := cb_logs r c1 in (c2, b :: bs)
  end.
