(** Model of the tree walks of src/mod/common/db/rbtree.h, rbtree.c and
    db/bib/db.c, over binary trees of nodes.

    Simplifications: colours are left out.  The kernel's rb_insert_color and
    rb_erase (which rebalance) are trusted to keep the in-order sequence of the
    other nodes, and rb_next and rb_first to follow that sequence. *)
Require Import Verif.Base Verif.Fsm_Model Verif.Bib_Model.

Inductive bt := Lf | Nd (l : bt) (i : Z) (r : bt).
Fixpoint inorder (t : bt) : list Z :=
  match t with Lf => [] | Nd l i r => inorder l ++ i :: inorder r end.

(** rbtree.h:22-43 rbtree_find; [cmp i] compares node [i] with what is sought *)
Fixpoint rbtree_find (cmp : Z -> comparison) (t : bt) : option Z :=
  match t with
  | Lf => None
  | Nd l i r => match cmp i with Lt => rbtree_find cmp r | Gt => rbtree_find cmp l | Eq => Some i end
  end.

(** rbtree.h:122-127 tree_slot: [parent], and whether [rb_link] is the parent's
    left child *)
Record slot := Slot { parent : option Z; leftw : bool }.

(** rbtree.h:144-168 rbtree_find_slot *)
Fixpoint find_slot_loop (cmp : Z -> comparison) (t : bt) (s : slot) : option Z * slot :=
  match t with
  | Lf => (None, s)
  | Nd l i r =>
    match cmp i with
    | Lt => find_slot_loop cmp r (Slot (Some i) false)
    | Gt => find_slot_loop cmp l (Slot (Some i) true)
    | Eq => (Some i, Slot (Some i) (leftw s))
    end
  end.
(** rbtree.c:5-13 treeslot_init *)
Definition treeslot_init : slot := Slot None false.
Definition rbtree_find_slot (cmp : Z -> comparison) (t : bt) : option Z * slot := find_slot_loop cmp t treeslot_init.

(** rbtree.c:15-19 treeslot_commit, without the rebalancing; [None] when the
    slot is not an empty place of the tree *)
Fixpoint link_below (t : bt) (p : Z) (left : bool) (new : Z) : option bt :=
  match t with
  | Lf => None
  | Nd l i r =>
    if i =? p then
      match left, l, r with
      | true, Lf, _ => Some (Nd (Nd Lf new Lf) i r)
      | false, _, Lf => Some (Nd l i (Nd Lf new Lf))
      | _, _, _ => None
      end
    else match link_below l p left new with
         | Some l' => Some (Nd l' i r)
         | None => match link_below r p left new with Some r' => Some (Nd l i r') | None => None end
         end
  end.
Definition treeslot_commit (t : bt) (s : slot) (new : Z) : option bt :=
  match parent s with
  | None => match t with Lf => Some (Nd Lf new Lf) | _ => None end
  | Some p => link_below t p (leftw s) new
  end.

(** Kernel rb_next *)
Fixpoint after (i : Z) (l : list Z) : option Z :=
  match l with [] => None | j :: l' => if j =? i then match l' with [] => None | k :: _ => Some k end else after i l' end.
Definition rb_next (t : bt) (i : Z) : option Z := after i (inorder t).
Definition rb_first (t : bt) : option Z := match inorder t with [] => None | i :: _ => Some i end.

(** db.c:2085-2093 slot_next *)
Definition slot_next (t : bt) (s : slot) : option Z :=
  match parent s with None => None | Some p => if leftw s then Some p else rb_next t p end.

(** db.c:2028-2056 find_starting_point; [cmp = None]: no offset *)
Definition find_starting_node (t : bt) (cmp : option (Z -> comparison)) (include_offset : bool) : option Z :=
  match cmp with
  | None => rb_first t
  | Some cmp =>
    match rbtree_find_slot cmp t with
    | (Some i, _) => if include_offset then Some i else rb_next t i
    | (None, s) =>
      match parent s with
      | None => None
      | Some p => match cmp p with Lt => rb_next t p | _ => Some p end
      end
    end
  end.

Fixpoint right_child (t : bt) (i : Z) : option bt :=
  match t with
  | Lf => None
  | Nd l j r => if j =? i then Some r else match right_child l i with Some x => Some x | None => right_child r i end
  end.
(** db.c:1219-1249 try_next: collision, or slot; [same j]: node [j] has the
    wanted transport address *)
Definition try_next_slot (t : bt) (pred : Z) (same : Z -> bool) : option Z * slot :=
  match rb_next t pred with
  | None => (None, Slot (Some pred) false)
  | Some next =>
    if same next then (Some next, treeslot_init)
    else match right_child t pred with
         | Some (Nd _ _ _) => (None, Slot (Some next) true)
         | _ => (None, Slot (Some pred) false)
         end
  end.

(** db.c:943-977 find_session_slot: [allow], computed on the way down *)
Fixpoint allow_loop (key : Z -> ta) (k : ta) (t : bt) (allow : bool) : bool :=
  match t with
  | Lf => allow
  | Nd l i r =>
    let allow := if fst (key i) =? fst k then true else allow in
    match ta_cmp (key i) k with Lt => allow_loop key k r allow | Gt => allow_loop key k l allow | Eq => allow end
  end.
