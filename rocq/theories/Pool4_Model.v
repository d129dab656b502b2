(** Model of src/mod/common/db/pool4/db.c, empty.c and rfc6056.c, and of the
    range helpers of src/common/types.c.

    Simplifications.  A red-black tree is the list of its tables in in-order;
    searches compare keys for equality, which is what the tree search amounts
    to as long as the comparison function is a total order (see [cmp_mark]
    below for when it is not).  Each lock-protected section is atomic.
    The outcome of every allocation is taken from a list: [KFail], [KStay]
    (krealloc grows in place), [KMove] (krealloc frees the old block). *)
Require Import Verif.Base Verif.Addr_Model Verif.Rtrie_Model.

Inductive kro := KFail | KStay | KMove.
Definition mem := list kro.
Definition draw (m : mem) : kro * mem := match m with [] => (KStay, []) | k :: m' => (k, m') end.

(** struct ipv4_range (types.h:196-204), ports included *)
Record range := Rg { r_addr : Z; r_len : Z; r_min : Z; r_max : Z }.

(** types.c:71-74 port_range_count: int arithmetic, then + 1U *)
Definition rcount (lo hi : Z) : Z := u32 (hi - lo + 1).
Definition range_count (r : range) : Z := rcount (r_min r) (r_max r).

(** types.c:60-64 port_range_touches *)
Definition port_range_touches (a b : range) : bool := (r_min b - 1 <=? r_max a) && (r_min a <=? r_max b + 1).
(** types.c:89-95 ipv4_range_touches *)
Definition ipv4_range_touches (a b : range) : bool :=
  (r_addr a =? r_addr b) && (r_len a =? r_len b) && port_range_touches a b.
(** types.c:82-87 ipv4_range_equals *)
Definition ipv4_range_equals (a b : range) : bool :=
  (r_addr a =? r_addr b) && (r_len a =? r_len b) && (r_min a =? r_min b) && (r_max a =? r_max b).
(** types.c:76-80 port_range_fuse, db.c:365-368 ipv4_range_fuse *)
Definition ipv4_range_fuse (a b : range) : range :=
  Rg (r_addr a) (r_len a) (if r_min a <? r_min b then r_min a else r_min b)
     (if r_max b <? r_max a then r_max a else r_max b).

(** db.c:346-363 compare_range.  ipv4_addr_cmp (address.h:83-87) is memcmp on
    the network-order address. *)
Definition compare_range (a b : range) : comparison :=
  match r_addr a ?= r_addr b with
  | Lt => Lt
  | Gt => Gt
  | Eq => if r_max a <? r_min b - 1 then Lt else if r_max b + 1 <? r_min a then Gt else Eq
  end.

(** config.h:354-358 *)
Definition ITERATIONS_SET := 1.
Definition ITERATIONS_AUTO := 2.
Definition ITERATIONS_INFINITE := 4.

(** db.c:39-72 struct pool4_table; sample_count is the length of [t_ranges] *)
Record table := Tb { t_count : Z; t_ranges : list range; t_maxit : Z; t_flags : Z }.

(** db.c:242-262 create_table *)
Definition create_table (r : range) : table := Tb (range_count r) [r] 0 ITERATIONS_AUTO.

(** db.c:370-386 fix_collisions: [e] is *entry, [rest] what follows it *)
Fixpoint fix_collisions (count : Z) (e : range) (rest : list range) : Z * list range :=
  match rest with
  | [] => (count, [e])
  | x :: rest' =>
    if ipv4_range_touches e x then
      let f := ipv4_range_fuse e x in
      fix_collisions (u32 (u32 (u32 (count - range_count e) - range_count x) + range_count f)) f rest'
    else (count, e :: x :: rest')
  end.

(** Where the table lives after an operation: still where it was, moved by
    krealloc, or the operation failed. *)
Inductive placed := Same | Moved.

(** db.c:432-451 pool4_add_range with slip_in (376-430).  The result says
    whether the table the caller points to is still allocated. *)
Fixpoint add_range_loop (count : Z) (l : list range) (new : range) (k : kro) : rc * Z * list range * placed :=
  let slip := match k with
              | KFail => (Err ENOMEM, count, l, Same)
              | KStay => (OK, u32 (count + range_count new), new :: l, Same)
              | KMove => (OK, u32 (count + range_count new), new :: l, Moved)
              end in
  match l with
  | [] => slip
  | e :: l' =>
    match compare_range e new with
    | Eq => let (c, l'') := fix_collisions count (ipv4_range_fuse e new) l' in (OK, c, l'', Same)
    | Gt => slip
    | Lt => let '(r, c, l'', p) := add_range_loop count l' new k in (r, c, e :: l'', p)
    end
  end.

(** Does adding [new] call krealloc? (only used to thread the oracle) *)
Definition needs_slot (l : list range) (new : range) : bool :=
  negb (existsb (fun e => match compare_range e new with Eq => true | _ => false end) l).

Definition pool4_add_range (t : table) (new : range) (m : mem) : rc * table * placed * mem :=
  let (k, m) := if needs_slot (t_ranges t) new then draw m else (KStay, m) in
  let '(r, c, l, p) := add_range_loop (t_count t) (t_ranges t) new k in
  (r, Tb c l (t_maxit t) (t_flags t), p, m).

(** A tree: in-order list of (key, table). *)
Definition tree := list (Z * table).
Definition tree_find (k : Z) (t : tree) : option table :=
  match find (fun x => fst x =? k) t with Some x => Some (snd x) | None => None end.
Definition tree_replace (k : Z) (t : tree) (v : table) : tree :=
  map (fun x => if fst x =? k then (k, v) else x) t.
Definition tree_erase (k : Z) (t : tree) : tree := filter (fun x => negb (fst x =? k)) t.
(** rbtree.h:55-83 rbtree_add: [before a b]: a goes left of b *)
Fixpoint tree_insert (before : Z -> Z -> bool) (k : Z) (v : table) (t : tree) : tree :=
  match t with
  | [] => [(k, v)]
  | x :: t' => if before k (fst x) then (k, v) :: x :: t' else x :: tree_insert before k v t'
  end.

Definition s32 (x : Z) : Z := let y := u32 x in if y <? 2^31 then y else y - 2^32.

(** db.c:180-183 cmp_mark, int arithmetic (wrapping: the kernel is compiled
    with -fno-strict-overflow) *)
Definition cmp_mark (table_mark mark : Z) : Z := s32 (s32 mark - s32 table_mark).

(** One protocol's share of struct pool4 (db.c:84-98) *)
Record trees := Trees { tmark : tree; taddr : tree }.
Inductive proto := TCP | UDP | ICMP | OTHER.
Record pool4 := Pool4 { p_tcp : trees; p_udp : trees; p_icmp : trees }.
Definition no_trees := Trees [] [].

(** db.c:264-282 pool4db_alloc *)
Definition pool4db_alloc : pool4 := Pool4 no_trees no_trees no_trees.

(** db.c:163-178 get_tree; [None] for protocols pool4 does not know *)
Definition get_trees (p : pool4) (pr : proto) : option trees :=
  match pr with TCP => Some (p_tcp p) | UDP => Some (p_udp p) | ICMP => Some (p_icmp p) | OTHER => None end.
Definition set_trees (p : pool4) (pr : proto) (t : trees) : pool4 :=
  match pr with
  | TCP => Pool4 t (p_udp p) (p_icmp p)
  | UDP => Pool4 (p_tcp p) t (p_icmp p)
  | ICMP => Pool4 (p_tcp p) (p_udp p) t
  | OTHER => p
  end.

(** db.c:219-224 is_empty: only the mark trees are looked at *)
Definition pool_is_empty (p : pool4) : bool :=
  match tmark (p_tcp p), tmark (p_udp p), tmark (p_icmp p) with [], [], [] => true | _, _, _ => false end.

(** struct pool4_entry (types.h:206-217) *)
Record pool4_entry := PEntry { pe_mark : Z; pe_iter : Z; pe_flags : Z; pe_proto : proto; pe_range : range }.

(** db.c:325-344 max_iterations_validate *)
Definition max_iterations_validate (flags iterations : Z) : rc :=
  let automatic := negb (Z.land flags ITERATIONS_AUTO =? 0) in
  let infinite := negb (Z.land flags ITERATIONS_INFINITE =? 0) in
  if Z.land flags ITERATIONS_SET =? 0 then OK
  else if automatic && infinite then Err EINVAL
  else if (iterations =? 0) && negb automatic && negb infinite then Err EINVAL
  else OK.

(** db.c:471-475, 483-486: overriding the iteration limit *)
Definition set_iters (e : pool4_entry) (t : table) : table :=
  if Z.land (pe_flags e) ITERATIONS_SET =? 0 then t
  else Tb (t_count t) (t_ranges t) (pe_iter e) (pe_flags e).

(** Larger marks (as int) go to the left: cmp_mark < 0 means "go right". *)
Definition mark_before (a b : Z) : bool := s32 b <? s32 a.
(** db.c:192-195 cmp_addr: smaller addresses go to the left *)
Definition addr_before (a b : Z) : bool := a <? b.

(** db.c:453-498 add_to_mark_tree.  Line 472 writes through [table] after
    slip_in may have freed it: UB if the block moved. *)
Definition add_to_mark_tree (t : trees) (e : pool4_entry) (new : range) (m : mem) : res (rc * trees * mem) :=
  match tree_find (pe_mark e) (tmark t) with
  | Some tb =>
    let '(r, tb', p, m) := pool4_add_range tb new m in
    match r with
    | Err x => Ok (Err x, Trees (tree_replace (pe_mark e) (tmark t) tb') (taddr t), m)
    | OK =>
      if Z.land (pe_flags e) ITERATIONS_SET =? 0
      then Ok (OK, Trees (tree_replace (pe_mark e) (tmark t) tb') (taddr t), m)
      else match p with
           | Moved => UB
           | Same => Ok (OK, Trees (tree_replace (pe_mark e) (tmark t) (set_iters e tb')) (taddr t), m)
           end
    end
  | None =>
    let (k, m) := draw m in
    match k with
    | KFail => Ok (Err ENOMEM, t, m)
    | _ => Ok (OK, Trees (tree_insert mark_before (pe_mark e) (set_iters e (create_table new)) (tmark t)) (taddr t), m)
    end
  end.

(** db.c:500-532 add_to_addr_tree *)
Definition add_to_addr_tree (t : trees) (new : range) (m : mem) : rc * trees * mem :=
  match tree_find (r_addr new) (taddr t) with
  | Some tb =>
    let '(r, tb', _, m) := pool4_add_range tb new m in
    (r, Trees (tmark t) (tree_replace (r_addr new) (taddr t) tb'), m)
  | None =>
    let (k, m) := draw m in
    match k with
    | KFail => (Err ENOMEM, t, m)
    | _ => (OK, Trees (tmark t) (tree_insert addr_before (r_addr new) (create_table new) (taddr t)), m)
    end
  end.

(** The addresses foreach_addr4 (address.h:65-69) visits *)
Definition prefix4_addrs (p : prefix4) : list Z :=
  map (fun i => p4_addr p + Z.of_nat i) (seq 0 (Z.to_nat (prefix4_next p - p4_addr p))).

(** db.c:590-600: the loop of pool4db_add *)
Fixpoint add_addrs (t : trees) (e : pool4_entry) (lo hi : Z) (addrs : list Z) (m : mem) : res (rc * trees * mem) :=
  match addrs with
  | [] => Ok (OK, t, m)
  | a :: addrs' =>
    let new := Rg a 32 lo hi in
    let! r := add_to_mark_tree t e new m in
    let '(r1, t, m) := r in
    match r1 with
    | Err x => Ok (Err x, t, m)
    | OK =>
      let '(r2, t, m) := add_to_addr_tree t new m in
      match r2 with
      | Err x => Ok (Err x, t, m)
      | OK => add_addrs t e lo hi addrs' m
      end
    end
  end.

Definition range_prefix (r : range) : prefix4 := P4 (r_addr r) (r_len r).

(** db.c:554-621 pool4db_add.  [eph]: the namespace's ephemeral port range;
    [None] when there is no namespace. *)
Definition add_ports (e : pool4_entry) : Z * Z :=
  let lo := Z.min (r_min (pe_range e)) (r_max (pe_range e)) in
  let hi := Z.max (r_min (pe_range e)) (r_max (pe_range e)) in
  match pe_proto e with
  | TCP | UDP => (if lo =? 0 then 1 else lo, hi)
  | _ => (lo, hi)
  end.

Definition ephemeral_clash (e : pool4_entry) (eph : option (Z * Z)) (force : bool) : bool :=
  let (lo, hi) := add_ports e in
  match pe_proto e, eph with
  | TCP, Some (emin, emax) | UDP, Some (emin, emax) => negb force && (emin <=? hi) && (lo <=? emax)
  | _, _ => false
  end.

Definition pool4db_add (p : pool4) (e : pool4_entry) (eph : option (Z * Z)) (force : bool) (m : mem) : res (rc * pool4) :=
  match prefix4_validate (range_prefix (pe_range e)) with
  | Err x => Ok (Err x, p)
  | OK =>
    match max_iterations_validate (pe_flags e) (pe_iter e) with
    | Err x => Ok (Err x, p)
    | OK =>
      if ephemeral_clash e eph force then Ok (Err EINVAL, p)
      else
        match get_trees p (pe_proto e) with
        | None => Ok (Err EINVAL, p)
        | Some t =>
          let (lo, hi) := add_ports e in
          let! r := add_addrs t e lo hi (prefix4_addrs (range_prefix (pe_range e))) m in
          let '(x, t', _) := r in
          Ok (x, set_trees p (pe_proto e) t')
        end
    end
  end.

(** db.c:658-727 remove_range: the loop over the table's ranges.  [m] holds the
    outcomes of krealloc.  After a hole is punched the loop goes on reading
    [table] (l.671): UB if the block moved.  The second half of the hole
    ([tmp]) is visited next and skipped by l.706, so it is just kept. *)
Fixpoint rm_loop (count : Z) (l : list range) (p : prefix4) (lo hi : Z) (m : mem) : res (rc * Z * list range * mem) :=
  match l with
  | [] => Ok (OK, count, [], m)
  | e :: l' =>
    if negb (prefix4_contains p (r_addr e)) then
      let! r := rm_loop count l' p lo hi m in let '(x, c, l'', m) := r in Ok (x, c, e :: l'', m)
    else if (lo <=? r_min e) && (r_max e <=? hi) then
      rm_loop (u32 (count - range_count e)) l' p lo hi m
    else if (r_min e <? lo) && (hi <? r_max e) then
      let count := u32 (count - rcount lo hi) in
      let tmp := Rg (r_addr e) (r_len e) (hi + 1) (r_max e) in
      let e' := Rg (r_addr e) (r_len e) (r_min e) (lo - 1) in
      let (k, m) := draw m in
      match k with
      | KFail => Ok (Err ENOMEM, count, e' :: l', m)
      | KMove => UB
      | KStay =>
        let! r := rm_loop (u32 (count + range_count tmp)) l' p lo hi m in
        let '(x, c, l'', m) := r in Ok (x, c, e' :: tmp :: l'', m)
      end
    else if (hi <? r_min e) || (r_max e <? lo) then
      let! r := rm_loop count l' p lo hi m in let '(x, c, l'', m) := r in Ok (x, c, e :: l'', m)
    else if r_min e <? lo then
      let! r := rm_loop (u32 (count - (r_max e - lo + 1))) l' p lo hi m in
      let '(x, c, l'', m) := r in Ok (x, c, Rg (r_addr e) (r_len e) (r_min e) (lo - 1) :: l'', m)
    else if hi <? r_max e then
      let! r := rm_loop (u32 (count - (hi - r_min e + 1))) l' p lo hi m in
      let '(x, c, l'', m) := r in Ok (x, c, Rg (r_addr e) (r_len e) (hi + 1) (r_max e) :: l'', m)
    else
      let! r := rm_loop count l' p lo hi m in let '(x, c, l'', m) := r in Ok (x, c, e :: l'', m)
  end.

(** db.c:718-723: the table is erased when nothing is left *)
Definition remove_range (tr : tree) (k : Z) (tb : table) (p : prefix4) (lo hi : Z) (m : mem) : res (rc * tree * mem) :=
  let! r := rm_loop (t_count tb) (t_ranges tb) p lo hi m in
  let '(x, c, l, m) := r in
  Ok (x, match l with
         | [] => tree_erase k tr
         | _ => tree_replace k tr (Tb c l (t_maxit tb) (t_flags tb))
         end, m).

(** db.c:729-744 rm_from_mark_tree *)
Definition rm_from_mark_tree (t : trees) (mark : Z) (p : prefix4) (lo hi : Z) (m : mem) : res (rc * trees * mem) :=
  match tree_find mark (tmark t) with
  | None => Ok (OK, t, m)
  | Some tb =>
    let! r := remove_range (tmark t) mark tb p lo hi m in
    let '(x, tr, m) := r in Ok (x, Trees tr (taddr t), m)
  end.

(** db.c:746-791 rm_from_addr_tree.  find_by_prefix lands on some table whose
    address is in the prefix, and the two loops walk to both sides while the
    address still is; since the tree is sorted by address, together they visit
    every table in the prefix.  The order of the visits (which only matters
    when krealloc fails or moves half way through) is simplified to in-order. *)
Fixpoint rm_tables (keys : list Z) (tr : tree) (p : prefix4) (lo hi : Z) (m : mem) : res (rc * tree * mem) :=
  match keys with
  | [] => Ok (OK, tr, m)
  | k :: keys' =>
    match tree_find k tr with
    | None => rm_tables keys' tr p lo hi m
    | Some tb =>
      let! r := remove_range tr k tb p lo hi m in
      let '(x, tr, m) := r in
      match x with
      | Err e => Ok (Err e, tr, m)
      | OK => rm_tables keys' tr p lo hi m
      end
    end
  end.
Definition rm_from_addr_tree (t : trees) (p : prefix4) (lo hi : Z) (m : mem) : res (rc * trees * mem) :=
  let! r := rm_tables (filter (prefix4_contains p) (map fst (taddr t))) (taddr t) p lo hi m in
  let '(x, tr, m) := r in Ok (x, Trees (tmark t) tr, m).

(** db.c:793-812 pool4db_rm, 814-817 pool4db_rm_usr *)
Definition pool4db_rm (p : pool4) (mark : Z) (pr : proto) (r : range) (m : mem) : res (rc * pool4) :=
  match prefix4_validate (range_prefix r) with
  | Err x => Ok (Err x, p)
  | OK =>
    let lo := Z.min (r_min r) (r_max r) in
    let hi := Z.max (r_min r) (r_max r) in
    match get_trees p pr with
    | None => Ok (Err EINVAL, p)
    | Some t =>
      let! x := rm_from_mark_tree t mark (range_prefix r) lo hi m in
      let '(x, t, m) := x in
      match x with
      | Err e => Ok (Err e, set_trees p pr t)
      | OK =>
        let! y := rm_from_addr_tree t (range_prefix r) lo hi m in
        let '(y, t, _) := y in Ok (y, set_trees p pr t)
      end
    end
  end.

(** db.c:819-824 pool4db_flush *)
Definition pool4db_flush (p : pool4) : pool4 := pool4db_alloc.

(** db.c:623-656 pool4db_update *)
Definition pool4db_update (p : pool4) (pr : proto) (mark flags iters : Z) : rc * pool4 :=
  match max_iterations_validate flags iters with
  | Err x => (Err x, p)
  | OK =>
    match get_trees p pr with
    | None => (Err EINVAL, p)
    | Some t =>
      match tree_find mark (tmark t) with
      | None => (Err ESRCH, p)
      | Some tb =>
        if Z.land flags ITERATIONS_SET =? 0 then (OK, p)
        else (OK, set_trees p pr (Trees (tree_replace mark (tmark t) (Tb (t_count tb) (t_ranges tb) iters flags)) (taddr t)))
      end
    end
  end.

(** db.c:826-846 find_port_range: binary search, by port only.  [first] and
    [last] are indexes; do-while. *)
Fixpoint find_port_range (l : list range) (port : Z) (fuel : nat) (first last : Z) : res (option range) :=
  match fuel with
  | O => NoFuel
  | S fuel' =>
    let middle := first + Z.quot (last - first) 2 in
    match (if middle <? 0 then None else nth_error l (Z.to_nat middle)) with
    | None => UB
    | Some r =>
      if port <? r_min r then
        if first <=? middle - 1 then find_port_range l port fuel' first (middle - 1) else Ok None
      else if r_max r <? port then
        if middle + 1 <=? last then find_port_range l port fuel' (middle + 1) last else Ok None
      else Ok (Some r)
    end
  end.

(** empty.c:29-35 pool4empty_contains.  [ifas]: local address and whether the
    scope is universe, of each interface address of the namespace *)
Definition DEFAULT_POOL4_MIN_PORT := 61001.
Definition DEFAULT_POOL4_MAX_PORT := 65535.
Definition pool4empty_contains (ifas : list (Z * bool)) (a port : Z) : bool :=
  if port <? DEFAULT_POOL4_MIN_PORT then false else existsb (fun i => snd i && (fst i =? a)) ifas.

(** db.c:853-872 pool4db_contains *)
Definition pool4db_contains (p : pool4) (ifas : list (Z * bool)) (pr : proto) (a port : Z) : res bool :=
  if pool_is_empty p then Ok (pool4empty_contains ifas a port)
  else
    match get_trees p pr with
    | None => Ok false
    | Some t =>
      match tree_find a (taddr t) with
      | None => Ok false
      | Some tb =>
        let n := length (t_ranges tb) in
        let! r := find_port_range (t_ranges tb) port (S n) 0 (Z.of_nat n - 1) in
        Ok (match r with Some _ => true | None => false end)
      end
    end.

(** db.c:889-959 compute_max_iterations *)
Definition compute_max_iterations (t : table) : Z :=
  if negb (Z.land (t_flags t) ITERATIONS_INFINITE =? 0) then 0
  else if Z.land (t_flags t) ITERATIONS_AUTO =? 0 then t_maxit t
  else
    let result := Z.shiftr (t_count t) 7 in
    if result <? 1024 then 1024 else if 8192 <? result then 8192 else result.

(** db.c:1008-1024: everything the loop would hand out for one protocol, in
    order.  Only the mark and the range of a sample are kept, not the iteration
    flags and limit. *)
Definition samples (tr : tree) : list (Z * range) :=
  flat_map (fun x => map (fun r => (fst x, r)) (t_ranges (snd x))) tr.

(** db.c:874-887 find_offset: the ranges after the one sought *)
Fixpoint find_offset (l : list range) (offset : range) : option (list range) :=
  match l with
  | [] => None
  | r :: l' => if ipv4_range_equals offset r then Some l' else find_offset l' offset
  end.
(** rb_next until the end: the tables after the one keyed [k] *)
Fixpoint tables_after (k : Z) (tr : tree) : tree :=
  match tr with [] => [] | x :: tr' => if fst x =? k then tr' else tables_after k tr' end.

(** db.c:978-1032 pool4db_foreach_sample with the callback of nl/pool4.c:11-14
    (1 when the entry does not fit).  [Some] offset in the result: -EAGAIN. *)
Definition pool4db_foreach_sample (tr : tree) (cap : nat) (offset : option (Z * range)) : list (Z * range) * bool * option (Z * range) :=
  let put l := (firstn cap l, (cap <? length l)%nat, None) in
  match offset with
  | None => put (samples tr)
  | Some (m, r) =>
    match tree_find m tr with
    | None => ([], false, offset)
    | Some tb =>
      match find_offset (t_ranges tb) r with
      | None => ([], false, offset)
      | Some rest => put (map (fun r => (m, r)) rest ++ samples (tables_after m tr))
      end
    end
  end.

(** db.c:100-128 struct mask_domain *)
Record domain := Dom {
  d_mark : Z; d_count : Z; d_counter : Z; d_maxit : Z; d_ranges : list range;
  d_cur : nat; (* index of current_range *)
  d_port : Z; d_dynamic : bool }.

(** db.c:1187-1197: placing the cursor.  [None]: the "Bug" exit. *)
Fixpoint place (l : list range) (i : nat) (offset : Z) : option (nat * Z) :=
  match l with
  | [] => None
  | r :: l' => if offset <=? range_count r then Some (i, r_min r + offset - 1)
               else place l' (S i) (u32 (offset - range_count r))
  end.

Inductive found := Domain (d : domain) | Drop.

(** db.c:1082-1113 find_empty; [addr] is the source address routing would pick *)
Definition find_empty (addr offset : Z) : domain :=
  let r := Rg addr 0 DEFAULT_POOL4_MIN_PORT DEFAULT_POOL4_MAX_PORT in
  Dom 0 (range_count r) 0 0 [r] 0 (r_min r + offset mod range_count r) true.

(** db.c:1115-1178 mask_domain_find.  [hash] is the value of rfc6056_f, [eph]
    that of next_ephemeral; [route] the result of pool4empty_find.
    Division by zero is UB. *)
Definition mask_domain_find (p : pool4) (pr : proto) (mark : Z) (hash eph : Z) (route : option Z) (k : kro) : res found :=
  let offset := u32 (hash + eph) in
  match k with
  | KFail => Ok Drop
  | _ =>
    if pool_is_empty p then
      Ok (match route with Some a => Domain (find_empty a offset) | None => Drop end)
    else
      match get_trees p pr with
      | None => Ok Drop
      | Some t =>
        match tree_find mark (tmark t) with
        | None => Ok Drop
        | Some tb =>
          if t_count tb =? 0 then UB
          else
            Ok (match place (t_ranges tb) 0 (offset mod t_count tb) with
                | None => Drop
                | Some (i, port) => Domain (Dom mark (t_count tb) 0 (compute_max_iterations tb) (t_ranges tb) i port false)
                end)
        end
      end
  end.

(** db.c:1185-1210 mask_domain_next: [inl (addr, port, consecutive)], or
    [inr tt] for -ENOENT *)
Definition mask_domain_next (d : domain) : res (domain * ((Z * Z * bool) + unit)) :=
  let counter := u32 (d_counter d + 1) in
  let d := Dom (d_mark d) (d_count d) counter (d_maxit d) (d_ranges d) (d_cur d) (d_port d) (d_dynamic d) in
  if d_count d <? counter then Ok (d, inr tt)
  else if negb (d_maxit d =? 0) && (d_maxit d <? counter) then Ok (d, inr tt)
  else
    match nth_error (d_ranges d) (d_cur d) with
    | None => UB
    | Some cur =>
      let port := d_port d + 1 in
      if r_max cur <? port then
        let i := if (length (d_ranges d) <=? S (d_cur d))%nat then O else S (d_cur d) in
        match nth_error (d_ranges d) i with
        | None => UB
        | Some r => Ok (Dom (d_mark d) (d_count d) counter (d_maxit d) (d_ranges d) i (r_min r) (d_dynamic d),
                        inl (r_addr r, r_min r, false))
        end
      else Ok (Dom (d_mark d) (d_count d) counter (d_maxit d) (d_ranges d) (d_cur d) port (d_dynamic d),
               inl (r_addr cur, port, negb (counter =? 1)))
    end.

(** db.c:1223-1226 mask_domain_commit: the new next_ephemeral (atomic_t) *)
Definition mask_domain_commit (d : domain) (eph : Z) : Z := s32 (eph + d_counter d).

(** db.c:1228-1241 mask_domain_matches *)
Definition mask_domain_matches (d : domain) (a port : Z) : bool :=
  existsb (fun r => (r_addr r =? a) && (r_min r <=? port) && (port <=? r_max r)) (d_ranges d).

(** struct tuple, the IPv6 half (types.h): addresses as numbers *)
Record tuple6 := T6 { t6_saddr : Z; t6_sport : Z; t6_daddr : Z; t6_dport : Z }.

(** common/config.h:393-398 *)
Definition F_ARGS_SRC_ADDR := 8.
Definition F_ARGS_SRC_PORT := 4.
Definition F_ARGS_DST_ADDR := 2.
Definition F_ARGS_DST_PORT := 1.

Definition field (fields flag : Z) (bytes : list Z) : list Z := if Z.land fields flag =? 0 then [] else bytes.

(** rfc6056.c:113-144 hash_tuple: the octets handed to crypto_shash_update, in
    order.  l4 is a __u16 in host order; [key] is secret_key. *)
Definition hash_tuple (fields : Z) (t : tuple6) (key : list Z) : list Z :=
  field fields F_ARGS_SRC_ADDR (octets 16 (t6_saddr t)) ++
  field fields F_ARGS_SRC_PORT (octets 2 (t6_sport t)) ++
  field fields F_ARGS_DST_ADDR (octets 16 (t6_daddr t)) ++
  field fields F_ARGS_DST_PORT (octets 2 (t6_dport t)) ++ key.

(** rfc6056.c:153-198 rfc6056_f without the failures: [md5] is the kernel's
    digest, of which the last 32 bits are kept *)
Definition rfc6056_f (md5 : list Z -> list Z) (fields : Z) (t : tuple6) (key : list Z) : Z :=
  be_of (skipn 12 (md5 (hash_tuple fields t key))).

(** A history of pool4: the requests of nl/pool4.c plus flush. *)
Inductive op :=
| OAdd (e : pool4_entry) (eph : option (Z * Z)) (force : bool) (m : mem)
| ORm (mark : Z) (pr : proto) (r : range) (m : mem)
| OFlush
| OUpdate (pr : proto) (mark flags iters : Z).

Definition step (p : pool4) (o : op) : res (rc * pool4) :=
  match o with
  | OAdd e eph force m => pool4db_add p e eph force m
  | ORm mark pr r m => pool4db_rm p mark pr r m
  | OFlush => Ok (OK, pool4db_flush p)
  | OUpdate pr mark flags iters => Ok (pool4db_update p pr mark flags iters)
  end.

(** The results, newest first, and the pool. *)
Fixpoint run (p : pool4) (log : list (op * rc)) (ops : list op) : res (list (op * rc) * pool4) :=
  match ops with
  | [] => Ok (log, p)
  | o :: ops' => let! x := step p o in let (r, p') := x in run p' ((o, r) :: log) ops'
  end.
