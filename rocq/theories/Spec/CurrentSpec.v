(** A service table and a connection that looks at it, side by side. *)
From Coq Require Import NArith ZArith List Bool.
From Verif.Model Require Import Bytes Frame Service Control Alist SvcTable Session Manager Client Config.
From Verif.Spec Require Import ControlSpec ClientSpec TableSpec ConfigSpec.
Import ListNotations.
Local Open Scope N_scope.

(** Something happens to the table, the connection's timer fires, or something else happens to the connection. *)
Inductive happening :=
| HTable (o : top)
| HTick (t : Z)
| HOther (e : kev).

(** The table, the connection, what was seen of it so far, and the table as it was when the connection last
    looked for changes, with the time. *)
Record world := { w_table : table; w_conn : conn; w_seen : list cobs; w_checked : table; w_when : Z }.

(** The connection is made, and registers what the table shows. *)
Definition world_new (t0 : Z) (i : identity) (tb : table) : world :=
  let '(k, h) := connection t0 i (view_of tb) (view_of tb) [] in
  {| w_table := tb; w_conn := k; w_seen := h; w_checked := tb; w_when := t0 |}.

Definition running (k : conn) : bool := match k_result k with None => true | Some _ => false end.

(** A tick is a check if the server accepted the registration and the last check was five seconds ago. *)
Definition is_check (w : world) (t : Z) : bool :=
  running (w_conn w) && registered (w_seen w) && (5 * SEC <=? t - w_when w)%Z.

Definition world_step (hash : ident -> N) (w : world) (y : happening) : result world :=
  match y with
  | HTable o =>
      match tbl_step hash (w_table w) o with
      | ROk tb => ROk {| w_table := tb; w_conn := w_conn w; w_seen := w_seen w; w_checked := w_checked w; w_when := w_when w |}
      | _ => RPanic
      end
  | HTick t =>
      let v := view_of (w_table w) in
      let '(k, o) := conn_step (w_conn w) (KTick t v v v) in
      ROk {| w_table := w_table w; w_conn := k; w_seen := w_seen w ++ o;
             w_checked := if is_check w t then w_table w else w_checked w;
             w_when := if is_check w t then t else w_when w |}
  | HOther (KTick _ _ _ _) => ROk w
  | HOther e =>
      let '(k, o) := conn_step (w_conn w) e in
      ROk {| w_table := w_table w; w_conn := k; w_seen := w_seen w ++ o; w_checked := w_checked w; w_when := w_when w |}
  end.
Fixpoint world_run (hash : ident -> N) (w : world) (ys : list happening) : result world :=
  match ys with
  | [] => ROk w
  | y :: ys' => match world_step hash w y with ROk w' => world_run hash w' ys' | _ => RPanic end
  end.

(** What happened to the table. *)
Definition table_part (ys : list happening) : list top :=
  flat_map (fun y => match y with HTable o => [o] | _ => [] end) ys.

(** The services in a REGISTER or UPDATE message. *)
Definition listed (b : bytes) : option (list entry) :=
  match read_register b with
  | Some (_, r) => Some (g_table r)
  | None => match read_update b with Some (_, es) => Some es | None => None end
  end.

(** What a server that reads the client's messages in order believes: the last list. *)
Definition believes (h : list cobs) : list entry :=
  fold_left (fun acc x =>
    match x with
    | XQueue _ m => match listed (m_payload (amsg_of_cmsg m)) with Some es => es | None => acc end
    | _ => acc
    end) h [].

(** It believes in exactly the services that [tb] shows. *)
Definition right_about (tb : table) (es : list entry) : Prop :=
  forall x, In x es <-> exists id s, shown tb id = Some s /\ x = announce (id, s).
