(** Model of src/mod/common/rtrie.c: the black/white radix trie of the EAMT.

    This is a heap model.  Nodes live at addresses; [__wkmalloc] hands out an
    address never used before and may fail (the caller of each operation gives
    the outcomes); [__wkfree] removes the node, and any later access to that
    address is the outcome [UB].  Parent pointers are stored as in the C code.

    Simplifications: keys are the bit strings they denote ([Rtrie_Key] below
    relates the C byte loop to that); [list_hook] chains are a list of
    addresses; RCU grace periods are ignored (single updater, readers see the
    state between operations); the loops of find and rm carry fuel, and running
    out of it is the separate outcome [NoFuel]. *)
Require Import Verif.Base Verif.Addr_Model.

Inductive res (A : Type) := Ok (a : A) | UB | NoFuel.
Arguments Ok {A} a. Arguments UB {A}. Arguments NoFuel {A}.

Definition bind {A B} (m : res A) (f : A -> res B) : res B :=
  match m with Ok a => f a | UB => UB | NoFuel => NoFuel end.
Notation "'let!' x := m 'in' f" := (bind m (fun x => f))
  (at level 200, x pattern, m at level 100, f at level 200, right associativity).

(** ** Keys *)
Definition key := list bool.

(** Length of the longest common prefix. *)
Fixpoint lcp (a b : key) : nat :=
  match a, b with
  | x :: a', y :: b' => if Bool.eqb x y then S (lcp a' b') else 0%nat
  | _, _ => 0%nat
  end.

(** rtrie.c:81-111 __key_match: number of leading bits, out of [bits], in which
    the keys agree. *)
Definition key_match_n (k1 k2 : key) (bits : nat) : nat := lcp (firstn bits k1) (firstn bits k2).

(** rtrie.c:116-119 key_match *)
Definition key_match (k1 k2 : key) : nat := key_match_n k1 k2 (Nat.min (length k1) (length k2)).

(** rtrie.c:128-133 key_contains *)
Definition key_contains (k1 k2 : key) : bool :=
  if (length k1 <=? length k2)%nat then (key_match_n k1 k2 (length k1) =? length k1)%nat else false.

(** rtrie.c:135-140 key_equals *)
Definition key_equals (k1 k2 : key) : bool :=
  if (length k1 =? length k2)%nat then (key_match_n k1 k2 (length k1) =? length k1)%nat else false.

(** The byte-level text of __key_match (rtrie.c:73-111), for [Rtrie_Key]. *)
Definition get_bit (byte : Z) (pos : nat) : bool := Z.testbit byte (7 - Z.of_nat pos).

(** rtrie.c:92-98: the byte loop; returns (y, result, mismatch found) *)
Fixpoint km_bytes (k1 k2 : list Z) (y n : nat) : nat * bool :=
  match n with
  | O => (y, false)
  | S n' => if nth y k1 0 =? nth y k2 0 then km_bytes k1 k2 (S y) n' else (y, true)
  end.

(** rtrie.c:100-108: the bit loop over byte [y] *)
Fixpoint km_bits (b1 b2 : Z) (i n : nat) : nat :=
  match n with
  | O => 0%nat
  | S n' => if Bool.eqb (get_bit b1 i) (get_bit b2 i) then S (km_bits b1 b2 (S i) n') else 0%nat
  end.

Definition key_match_bytes (k1 k2 : list Z) (bits : nat) : nat :=
  let '(y, mismatch) := km_bytes k1 k2 0 (bits / 8)%nat in
  let bits' := if mismatch then 8%nat else (bits mod 8)%nat in
  let r := km_bits (nth y k1 0) (nth y k2 0) 0 bits' in
  (8 * y + r)%nat.

Section Trie.
Context {V : Type}.

(** rtrie.h:36-66 struct rtrie_node.  [n_val = Some v] is a white node holding
    [v], [None] a black one. *)
Record node := Node {
  n_left : option nat;
  n_right : option nat;
  n_parent : option nat;
  n_val : option V;
  n_key : key
}.

(** rtrie.h:68-84 struct rtrie, plus the heap its nodes live in. *)
Record trie := Trie {
  t_heap : nat -> option node;
  t_next : nat;      (* every address at or above this one is unused *)
  t_root : option nat;
  t_list : list nat  (* trie->list, head first *)
}.

(** rtrie.c:142-148 rtrie_init *)
Definition rtrie_init : trie := Trie (fun _ => None) 0 None [].

Definition hupd (h : nat -> option node) (p : nat) (v : option node) : nat -> option node :=
  fun q => if (q =? p)%nat then v else h q.

(** Dereference. *)
Definition deref (t : trie) (p : nat) : res node :=
  match t_heap t p with Some n => Ok n | None => UB end.

Definition store (t : trie) (p : nat) (n : node) : trie :=
  Trie (hupd (t_heap t) p (Some n)) (t_next t) (t_root t) (t_list t).
Definition free (t : trie) (p : nat) : trie :=
  Trie (hupd (t_heap t) p None) (t_next t) (t_root t) (t_list t).
Definition alloc (t : trie) (n : node) : nat * trie :=
  (t_next t, Trie (hupd (t_heap t) (t_next t) (Some n)) (S (t_next t)) (t_root t) (t_list t)).
Definition set_root (t : trie) (r : option nat) : trie :=
  Trie (t_heap t) (t_next t) r (t_list t).
Definition list_add (t : trie) (p : nat) : trie :=
  Trie (t_heap t) (t_next t) (t_root t) (p :: t_list t).
Definition list_del (t : trie) (p : nat) : trie :=
  Trie (t_heap t) (t_next t) (t_root t) (filter (fun q => negb (q =? p)%nat) (t_list t)).

Definition set_left (t : trie) (p : nat) (v : option nat) : res trie :=
  let! n := deref t p in
  Ok (store t p (Node v (n_right n) (n_parent n) (n_val n) (n_key n))).
Definition set_right (t : trie) (p : nat) (v : option nat) : res trie :=
  let! n := deref t p in
  Ok (store t p (Node (n_left n) v (n_parent n) (n_val n) (n_key n))).
Definition set_parent (t : trie) (p : nat) (v : option nat) : res trie :=
  let! n := deref t p in
  Ok (store t p (Node (n_left n) (n_right n) v (n_val n) (n_key n))).

(** rtrie.c:185-202: the loop of find_longest_common_prefix *)
Fixpoint find_loop (t : trie) (k : key) (force_white : bool) (fuel : nat)
    (p : nat) (last_white : option nat) : res (option nat) :=
  match fuel with
  | O => NoFuel
  | S fuel' =>
    let! n := deref t p in
    let last_white := match n_val n with Some _ => Some p | None => last_white end in
    let! goleft := match n_left n with
                   | None => Ok false
                   | Some c => let! cn := deref t c in Ok (key_contains (n_key cn) k)
                   end in
    if goleft : bool then
      match n_left n with Some c => find_loop t k force_white fuel' c last_white | None => UB end
    else
      let! goright := match n_right n with
                      | None => Ok false
                      | Some c => let! cn := deref t c in Ok (key_contains (n_key cn) k)
                      end in
      if goright : bool then
        match n_right n with Some c => find_loop t k force_white fuel' c last_white | None => UB end
      else Ok (if force_white then last_white else Some p)
  end.

(** rtrie.c:173-205 find_longest_common_prefix *)
Definition find_lcp (t : trie) (k : key) (force_white : bool) : res (option nat) :=
  match t_root t with
  | None => Ok None
  | Some r =>
    let! n := deref t r in
    if key_contains (n_key n) k then find_loop t k force_white (S (t_next t)) r None else Ok None
  end.

(** A [struct rtrie_node __rcu **]: the place a pointer is kept. *)
Inductive slot := SRoot | SLeft (p : nat) | SRight (p : nat).

Definition write_slot (t : trie) (s : slot) (v : option nat) : res trie :=
  match s with
  | SRoot => Ok (set_root t v)
  | SLeft p => set_left t p v
  | SRight p => set_right t p v
  end.

Definition opt_nat_eqb (a b : option nat) : bool :=
  match a, b with
  | Some x, Some y => (x =? y)%nat
  | None, None => true
  | _, _ => false
  end.

(** rtrie.c:210-221 get_parent_ptr *)
Definition get_parent_ptr (t : trie) (p : nat) : res slot :=
  let! n := deref t p in
  match n_parent n with
  | None => Ok SRoot
  | Some q =>
    let! qn := deref t q in
    Ok (if opt_nat_eqb (n_left qn) (Some p) then SLeft q else SRight q)
  end.

(** rtrie.c:223-239 swap_nodes.  Note that the children keep pointing at
    [old] as their parent. *)
Definition swap_nodes (t : trie) (old new : nat) : res trie :=
  let! o := deref t old in
  let! t := set_left t new (n_left o) in
  let! t := set_right t new (n_right o) in
  let! t := set_parent t new (n_parent o) in
  let! s := get_parent_ptr t old in
  let! t := write_slot t s (Some new) in
  let t := list_add t new in
  let t := list_del t old in
  Ok (free t old).

(** rtrie.c:28-50 create_inode; [ok = false] is an allocation failure. *)
Definition create_inode (t : trie) (ok : bool) (k : key) (l r : nat) : option (nat * trie) :=
  if ok then Some (alloc t (Node (Some l) (Some r) None None k)) else None.

(** rtrie.c:52-71 create_leaf *)
Definition create_leaf (t : trie) (ok : bool) (k : key) (v : V) : option (nat * trie) :=
  if ok then Some (alloc t (Node None None None (Some v) k)) else None.

(** rtrie.c:241-275 add_to_root *)
Definition add_to_root (t : trie) (ok2 : bool) (new : nat) : res (rc * trie) :=
  match t_root t with
  | None => Ok (OK, list_add (set_root t (Some new)) new)
  | Some root =>
    let! nn := deref t new in
    let! rn := deref t root in
    if key_contains (n_key nn) (n_key rn) then
      let! t := set_left t new (Some root) in
      let! t := set_parent t root (Some new) in
      let t := list_add t new in
      Ok (OK, set_root t (Some new))
    else
      let k := firstn (key_match (n_key rn) (n_key nn)) (n_key nn) in
      match create_inode t ok2 k root new with
      | None => Ok (Err ENOMEM, t)
      | Some (inode, t) =>
        let! t := set_parent t root (Some inode) in
        let! t := set_parent t new (Some inode) in
        let t := list_add (list_add t inode) new in
        Ok (OK, set_root t (Some inode))
      end
  end.

(** rtrie.c:277-358 add_full_collision.  [lchild]/[rchild] are the (non-NULL)
    children the caller found. *)
Definition add_full_collision (t : trie) (ok2 : bool) (parent new lchild rchild : nat) : res (rc * trie) :=
  let! ln := deref t lchild in
  let! rn := deref t rchild in
  let! nn := deref t new in
  let match_lr := key_match (n_key ln) (n_key rn) in
  let match_ln := key_match (n_key ln) (n_key nn) in
  let match_rn := key_match (n_key rn) (n_key nn) in
  let choice :=
    if (match_ln <? match_lr)%nat && (match_rn <? match_lr)%nat then Some (new, lchild, rchild, n_key ln, match_lr)
    else if (match_lr <? match_ln)%nat && (match_rn <? match_ln)%nat then Some (rchild, new, lchild, n_key nn, match_ln)
    else if (match_lr <? match_rn)%nat && (match_ln <? match_rn)%nat then Some (lchild, new, rchild, n_key nn, match_rn)
    else None in
  match choice with
  | None => Ok (Err EINVAL, t)
  | Some (smallest, h1, h2, h1key, len) =>
    match create_inode t ok2 (firstn len h1key) h1 h2 with
    | None => Ok (Err ENOMEM, t)
    | Some (inode, t) =>
      let! t := set_left t parent None in
      let! t := set_right t parent None in
      let! t := set_left t parent (Some smallest) in
      let! t := set_right t parent (Some inode) in
      let! t := set_parent t smallest (Some parent) in
      let! t := set_parent t inode (Some parent) in
      let! t := set_parent t h1 (Some inode) in
      let! t := set_parent t h2 (Some inode) in
      Ok (OK, list_add (list_add t inode) new)
    end
  end.

(** rtrie.c:437-440, the simple_success label *)
Definition simple_success (t : trie) (parent new : nat) : res (rc * trie) :=
  let! t := set_parent t new (Some parent) in
  Ok (OK, list_add t new).

(** rtrie.c:360-441 rtrie_add.  [ok1] and [ok2] are the outcomes of the leaf and
    inode allocations. *)
Definition rtrie_add (t : trie) (ok1 ok2 : bool) (k : key) (v : V) : res (rc * trie) :=
  match create_leaf t ok1 k v with
  | None => Ok (Err ENOMEM, t)
  | Some (new, t) =>
    let! par := find_lcp t k false in
    match par with
    | None => add_to_root t ok2 new
    | Some parent =>
      let! pn := deref t parent in
      if key_equals (n_key pn) k then
        match n_val pn with
        | None => let! t := swap_nodes t parent new in Ok (OK, t)
        | Some _ => Ok (Err EEXIST, free t new)
        end
      else
        match n_left pn with
        | None => let! t := set_left t parent (Some new) in simple_success t parent new
        | Some lchild =>
          match n_right pn with
          | None => let! t := set_right t parent (Some new) in simple_success t parent new
          | Some rchild =>
            let! ln := deref t lchild in
            let! rn := deref t rchild in
            let contains_left := key_contains k (n_key ln) in
            let contains_right := key_contains k (n_key rn) in
            if contains_left && contains_right then
              match n_val pn with
              | None => let! t := swap_nodes t parent new in Ok (OK, t)
              | Some _ =>
                let! t := set_left t new (Some lchild) in
                let! t := set_right t new (Some rchild) in
                let! t := set_left t parent None in
                let! t := set_right t parent None in
                let! t := set_right t parent (Some new) in
                let! t := set_parent t lchild (Some new) in
                let! t := set_parent t rchild (Some new) in
                simple_success t parent new
              end
            else if contains_left then
              let! t := set_left t new (Some lchild) in
              let! t := set_left t parent (Some new) in
              let! t := set_parent t lchild (Some new) in
              simple_success t parent new
            else if contains_right then
              let! t := set_right t new (Some rchild) in
              let! t := set_right t parent (Some new) in
              let! t := set_parent t rchild (Some new) in
              simple_success t parent new
            else add_full_collision t ok2 parent new lchild rchild
          end
        end
    end
  end.

(** rtrie.c:446-461 rtrie_find; [None] is -ESRCH *)
Definition rtrie_find (t : trie) (k : key) : res (option V) :=
  let! p := find_lcp t k true in
  match p with
  | None => Ok None
  | Some p => let! n := deref t p in
              match n_val n with Some v => Ok (Some v) | None => UB end
  end.

(** rtrie.c:463-472 rtrie_contains *)
Definition rtrie_contains (t : trie) (k : key) : res bool :=
  let! p := find_lcp t k true in
  Ok (match p with Some _ => true | None => false end).

(** rtrie.c:474-483 rtrie_is_empty (sic: true when there is a root) *)
Definition rtrie_is_empty (t : trie) : bool :=
  match t_root t with Some _ => true | None => false end.

(** rtrie.c:519-554: the pruning loop of rtrie_rm *)
Fixpoint prune (t : trie) (fuel : nat) (p : nat) : res trie :=
  match fuel with
  | O => NoFuel
  | S fuel' =>
    let! n := deref t p in
    let parent := n_parent n in
    let! s := get_parent_ptr t p in
    match n_left n with
    | Some c =>
      let! t := write_slot t s (Some c) in
      let! t := set_parent t c parent in
      Ok (free (list_del t p) p)
    | None =>
      match n_right n with
      | Some c =>
        let! t := write_slot t s (Some c) in
        let! t := set_parent t c parent in
        Ok (free (list_del t p) p)
      | None =>
        let! t := write_slot t s None in
        let t := free (list_del t p) p in
        match parent with
        | None => Ok t
        | Some q =>
          let! qn := deref t q in
          match n_val qn with
          | None => prune t fuel' q
          | Some _ => Ok t
          end
        end
      end
    end
  end.

(** rtrie.c:485-557 rtrie_rm *)
Definition rtrie_rm (t : trie) (ok : bool) (k : key) : res (rc * trie) :=
  let! p := find_lcp t k true in
  match p with
  | None => Ok (Err ESRCH, t)
  | Some p =>
    let! n := deref t p in
    if negb (key_equals (n_key n) k) then Ok (Err ESRCH, t)
    else
      match n_left n, n_right n with
      | Some l, Some r =>
        match create_inode t ok (n_key n) l r with
        | None => Ok (Err ENOMEM, t)
        | Some (new, t) =>
          let! s := get_parent_ptr t p in
          let! t := write_slot t s (Some new) in
          let! t := set_parent t l (Some new) in
          let! t := set_parent t r (Some new) in
          (* new->parent stays NULL: rtrie.c:42 and 503-515 never set it *)
          Ok (OK, free (list_del (list_add t new) p) p)
        end
      | _, _ => let! t := prune t (S (t_next t)) p in Ok (OK, t)
      end
  end.

(** rtrie.c:559-579 rtrie_flush *)
Definition rtrie_flush (t : trie) : trie :=
  match t_root t with
  | None => t
  | Some _ =>
    Trie (fun q => if existsb (Nat.eqb q) (t_list t) then None else t_heap t q)
         (t_next t) None []
  end.

(** rtrie.c:584-606 rtrie_foreach with a callback that collects everything;
    the result is the sequence of values passed to it and whether the offset
    was found.  List nodes are dereferenced one by one. *)
Fixpoint foreach_loop (t : trie) (l : list nat) (offset : option key) : res (list V * option key) :=
  match l with
  | [] => Ok ([], offset)
  | p :: l' =>
    let! n := deref t p in
    match offset with
    | Some o => foreach_loop t l' (if key_equals o (n_key n) then None else offset)
    | None =>
      let! r := foreach_loop t l' None in
      match n_val n with
      | Some v => Ok (v :: fst r, snd r)
      | None => Ok r
      end
    end
  end.

Definition rtrie_foreach (t : trie) (offset : option key) : res (rc * list V) :=
  match t_list t with
  | [] => Ok (OK, [])
  | l => let! r := foreach_loop t l offset in
         Ok (match snd r with Some _ => Err ESRCH | None => OK end, fst r)
  end.

(** ** Histories *)
Inductive trie_op :=
| TAdd (ok1 ok2 : bool) (k : key) (v : V)
| TRm (ok : bool) (k : key)
| TFlush.

Definition trie_step (t : trie) (o : trie_op) : res (rc * trie) :=
  match o with
  | TAdd ok1 ok2 k v => rtrie_add t ok1 ok2 k v
  | TRm ok k => rtrie_rm t ok k
  | TFlush => Ok (OK, rtrie_flush t)
  end.

(** Runs a history; the outputs are collected in order. *)
Fixpoint trie_run (t : trie) (ops : list trie_op) : res (list rc * trie) :=
  match ops with
  | [] => Ok ([], t)
  | o :: ops' =>
    let! r := trie_step t o in
    let! rest := trie_run (snd r) ops' in
    Ok (fst r :: fst rest, snd rest)
  end.

End Trie.
Arguments node V : clear implicits.
Arguments trie V : clear implicits.
Arguments trie_op V : clear implicits.
