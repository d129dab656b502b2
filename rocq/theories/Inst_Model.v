(** The database of instances and atomic configuration.
    Sources: src/mod/common/xlator.c, src/mod/common/atomic_config.c, src/mod/common/nl/global.c,
    src/mod/common/nl/nl_common.c.

    The databases of the instances (EAMT, denylist, pool4, BIB, joold,
    statistics) are reference counted objects whose contents are of an arbitrary
    type [D], with arbitrary operations; they are modelled in their own files.
    Requests are atomic: src/mod/common/xlator.c and src/mod/common/atomic_config.c each
    hold a mutex throughout. What happens between the instructions of a request
    (RCU readers) is not modelled. *)
Require Import Verif.Base Verif.Addr_Model Verif.Glob_Model.

Definition name := list Z.
Definition name_eqb (a b : name) : bool := if list_eq_dec Z.eq_dec a b then true else false.

(** src/mod/common/xlator.h:33-58 struct xlator: the union of the databases, by type. A NAT64's BIB and
    joold pointers can be NULL. *)
Inductive dbs := Siit (eamt denylist4 : Z) | Nat64 (pool4 : Z) (bib joold : option Z).
Record xlator := Xl { x_ns : Z; x_name : name; x_flags : Z; x_glob : globals; x_stats : Z; x_dbs : dbs }.
(** src/mod/common/xlator.c:41-65 struct jool_instance. [i_id]: its address. [i_hash]: hash_set and hash (its
    bucket). *)
Record instance := Inst { i_id : Z; i_x : xlator; i_hash : option nat; i_ops : option Z }.
(** src/mod/common/atomic_config.c:28-37 struct config_candidate *)
Record candidate := Cand { c_id : Z; c_x : xlator; c_time : Z; c_pid : Z }.

(** The kinds of databases *)
Inductive kind := Stats | Eamt | Denylist4 | Pool4 | Bib | Joold.
(** What the databases do: new ones; adding an entry (of a Netlink message,
    which might be malformed); whether the BIB's IPv4 transport addresses are all in
    pool4 (src/mod/common/xlator.c:609-620 check_bib); and the bucket of src/mod/common/xlator.c:73-84 get_hash. *)
Record databases (D E : Type) := DB {
  db_new : kind -> D;
  db_add : kind -> xlator -> bool -> E -> D -> rc * D;
  bib_in_pool4 : Z -> D -> D -> bool;
  bucket : Z -> Z -> name -> nat;
}.
Arguments db_new {D E}. Arguments db_add {D E}. Arguments bib_in_pool4 {D E}. Arguments bucket {D E}.

(** The kernel's state. [table]: the hash table's 64 buckets. [nf_list]: netfilter_instances.
    [cands]: the candidates. [objs]: the live databases, with their reference counts.
    [hooks]: the registered nf_hook_ops, with their namespaces. [held]: the clones of
    instances in use (by packets and requests). [next]: addresses not used yet.
    [bad_ref]: a database was used after being freed, or nf_hook_ops freed while
    registered. [bad_cand]: a candidate was used after being freed. *)
Record state (D : Type) := St { table : list (list instance); nf_list : list instance; cands : list candidate; objs : Z -> option (D * Z);
  hooks : list (Z * Z); held : list xlator; next : Z; bad_ref : bool; bad_cand : bool }.
Arguments St {D}. Arguments table {D}. Arguments nf_list {D}. Arguments cands {D}. Arguments objs {D}. Arguments hooks {D}.
Arguments held {D}. Arguments next {D}. Arguments bad_ref {D}. Arguments bad_cand {D}.
(** The circumstances of a request: the process' namespace and id, jiffies and
    the length of 2 seconds, which allocations succeed, whether hooks can be registered,
    what was in the memory allocated for the settings. *)
Record env := Env { e_ns : Z; e_pid : Z; e_now : Z; e_timeout : Z; e_alloc : nat -> bool; e_hook : rc; e_mem : globals }.

Section Inst.
Context {D E : Type} (W : databases D E).
Notation st := (state D).

Definition with_table (s : st) (t : list (list instance)) (l : list instance) : st := St t l (cands s) (objs s) (hooks s) (held s) (next s) (bad_ref s) (bad_cand s).
Definition with_cands (s : st) (c : list candidate) : st := St (table s) (nf_list s) c (objs s) (hooks s) (held s) (next s) (bad_ref s) (bad_cand s).
Definition with_objs (s : st) (o : Z -> option (D * Z)) (b : bool) : st := St (table s) (nf_list s) (cands s) o (hooks s) (held s) (next s) (bad_ref s || b) (bad_cand s).
Definition with_hooks (s : st) (h : list (Z * Z)) (b : bool) : st := St (table s) (nf_list s) (cands s) (objs s) h (held s) (next s) (bad_ref s || b) (bad_cand s).
Definition with_held (s : st) (h : list xlator) : st := St (table s) (nf_list s) (cands s) (objs s) (hooks s) h (next s) (bad_ref s) (bad_cand s).
Definition with_next (s : st) (n : Z) : st := St (table s) (nf_list s) (cands s) (objs s) (hooks s) (held s) n (bad_ref s) (bad_cand s).
Definition cand_touched (s : st) : st := St (table s) (nf_list s) (cands s) (objs s) (hooks s) (held s) (next s) (bad_ref s) true.

(** ** The databases' reference counts: kref_init(), kref_get(), kref_put() *)

Definition upd {A} (f : Z -> A) (o : Z) (v : A) : Z -> A := fun i => if i =? o then v else f i.
Definition alloc_obj (k : kind) (s : st) : Z * st := (next s, with_next (with_objs s (upd (objs s) (next s) (Some (db_new W k, 1))) false) (next s + 1)).
Definition kref_get (o : Z) (s : st) : st :=
  match objs s o with Some (d, n) => with_objs s (upd (objs s) o (Some (d, n + 1))) false | None => with_objs s (objs s) true end.
Definition kref_put (o : Z) (s : st) : st :=
  match objs s o with
  | Some (d, n) => with_objs s (upd (objs s) o (if n =? 1 then None else Some (d, n - 1))) false
  | None => with_objs s (objs s) true
  end.
(** With a pointer that might be NULL: a crash. *)
Definition kref_get_ptr (o : option Z) (s : st) : st := match o with Some o => kref_get o s | None => with_objs s (objs s) true end.
(** src/mod/common/xlator.c:130-145 xlator_get *)
Definition xlator_get (x : xlator) (s : st) : st :=
  let s := kref_get (x_stats x) s in
  match x_dbs x with
  | Siit e d => kref_get d (kref_get e s)
  | Nat64 p b j => kref_get_ptr j (kref_get_ptr b (kref_get p s))
  end.
(** src/mod/common/xlator.c:865-889 xlator_put *)
Definition xlator_put (x : xlator) (s : st) : st :=
  let s := kref_put (x_stats x) s in
  match x_dbs x with
  | Siit e d => kref_put d (kref_put e s)
  | Nat64 p b j =>
    let s := kref_put p s in
    let s := match b with Some b => kref_put b s | None => s end in
    match j with Some j => kref_put j s | None => s end
  end.

(** ** Validations *)

(** src/common/config.c:129-144 iname_validate, of a name that is not NULL *)
Definition iname_validate (n : name) : rc := if (length n <? 16)%nat && forallb (fun c => 32 <=? c) n then OK else Err EINVAL.
(** src/common/config.c:146-158 xt_validate, xf_validate; src/common/config.c:160-168 xlator_flags2xt, xlator_flags2xf *)
Definition flags2xt (f : Z) : Z := Z.land f 3.
Definition flags2xf (f : Z) : Z := Z.land f 12.
Definition xt_validate (xt : Z) : rc := if (xt =? XT_SIIT) || (xt =? XT_NAT64) then OK else Err EINVAL.
Definition xf_validate (xf : Z) : rc := if (xf =? XF_NETFILTER) || (xf =? XF_IPTABLES) then OK else Err EINVAL.
(** src/mod/common/xlator.h:90-98 xlator_is_nat64, xlator_is_netfilter; src/mod/common/xlator.c:930-938 xlator_get_type, xlator_get_framework *)
Definition is_nat64 (x : xlator) : bool := bit_and (x_flags x) XT_NAT64.
Definition is_netfilter (x : xlator) : bool := bit_and (x_flags x) XF_NETFILTER.
Definition xlator_get_type (x : xlator) : Z := if is_nat64 x then XT_NAT64 else XT_SIIT.
Definition xlator_get_framework (x : xlator) : Z := if is_netfilter x then XF_NETFILTER else XF_IPTABLES.
(** src/mod/common/xlator.c:351-368 basic_validations *)
Definition basic_validations (n : name) (flags : Z) : rc := match iname_validate n with OK => xt_validate (flags2xt flags) | e => e end.
(** src/mod/common/xlator.c:371-390 basic_add_validations *)
Definition basic_add_validations (n : name) (flags : Z) (pool6 : option prefix6) : rc :=
  match basic_validations n flags with
  | OK => match xf_validate (flags2xf flags) with
          | OK => if bit_and flags XT_NAT64 && match pool6 with None => true | Some _ => false end then Err EINVAL else OK
          | e => e
          end
  | e => e
  end.

(** ** The tables *)

(** src/mod/common/xlator.c:98-112 find_instance *)
Definition find_instance (s : st) (ns xt : Z) (n : name) : option instance :=
  find (fun i => (ns =? x_ns (i_x i)) && bit_and xt (x_flags (i_x i)) && name_eqb n (x_name (i_x i))) (nth (bucket W ns xt n) (table s) []).
(** src/mod/common/xlator.c:86-96 get_instance_hash *)
Definition get_instance_hash (i : instance) : nat :=
  match i_hash i with Some h => h | None => bucket W (x_ns (i_x i)) (flags2xt (x_flags (i_x i))) (x_name (i_x i)) end.
Definition set_hash (i : instance) : instance := Inst (i_id i) (i_x i) (Some (get_instance_hash i)) (i_ops i).
(** hash_add(): at the head of the bucket; hash_del(), list_del(): wherever it is *)
Fixpoint add_bucket (t : list (list instance)) (h : nat) (i : instance) : list (list instance) :=
  match t, h with
  | [], _ => []
  | b :: t, O => (i :: b) :: t
  | b :: t, S h => b :: add_bucket t h i
  end.
Definition unlink (l : list instance) (i : instance) : list instance := filter (fun j => negb (i_id j =? i_id i)) l.
Definition hash_del (t : list (list instance)) (i : instance) : list (list instance) := map (fun b => unlink b i) t.
(** hash_for_each(): the buckets in order *)
Definition all_instances (t : list (list instance)) : list instance := concat t.

(** src/mod/common/xlator.c:114-128 destroy_jool_instance *)
Definition destroy_jool_instance (i : instance) (unhook : bool) (s : st) : st :=
  let is_ops (h : Z * Z) := match i_ops i with Some o => snd h =? o | None => false end in
  let s :=
    if is_netfilter (i_x i) then
      let s := if unhook then with_hooks s (filter (fun h => negb ((fst h =? x_ns (i_x i)) && is_ops h)) (hooks s)) false else s in
      (* __wkfree(nf_ops) *) with_hooks s (hooks s) (existsb is_ops (hooks s))
    else s in
  xlator_put (i_x i) s.

(** ** Adding, removing *)

(** src/mod/common/xlator.c:260-288 init_siit and src/mod/common/xlator.c:290-323 init_nat64 *)
Definition init_siit (e : env) (x : Z -> name -> Z -> globals -> Z -> dbs -> xlator) (ns : Z) (n : name) (flags : Z) (p : option prefix6) (s : st) : (rc * option xlator) * st :=
  match globals_init (e_mem e) XT_SIIT p with
  | (Err err, _) => ((Err err, None), s)
  | (OK, g) =>
    if negb (e_alloc e 1) then ((Err ENOMEM, None), s) else
    let (stats, s) := alloc_obj Stats s in
    if negb (e_alloc e 2) then ((Err ENOMEM, None), kref_put stats s) else
    let (eamt, s) := alloc_obj Eamt s in
    if negb (e_alloc e 3) then ((Err ENOMEM, None), kref_put stats (kref_put eamt s)) else
    let (deny, s) := alloc_obj Denylist4 s in
    ((OK, Some (x ns n flags g stats (Siit eamt deny))), s)
  end.
Definition init_nat64 (e : env) (x : Z -> name -> Z -> globals -> Z -> dbs -> xlator) (ns : Z) (n : name) (flags : Z) (p : option prefix6) (s : st) : (rc * option xlator) * st :=
  match globals_init (e_mem e) XT_NAT64 p with
  | (Err err, _) => ((Err err, None), s)
  | (OK, g) =>
    if negb (e_alloc e 1) then ((Err ENOMEM, None), s) else
    let (stats, s) := alloc_obj Stats s in
    if negb (e_alloc e 2) then ((Err ENOMEM, None), kref_put stats s) else
    let (pool4, s) := alloc_obj Pool4 s in
    if negb (e_alloc e 3) then ((Err ENOMEM, None), kref_put stats (kref_put pool4 s)) else
    let (bib, s) := alloc_obj Bib s in
    if negb (e_alloc e 4) then ((Err ENOMEM, None), kref_put stats (kref_put pool4 (kref_put bib s))) else
    let (joold, s) := alloc_obj Joold s in
    ((OK, Some (x ns n flags g stats (Nat64 pool4 (Some bib) (Some joold)))), s)
  end.
(** src/mod/common/xlator.c:325-349 xlator_init *)
Definition xlator_init (e : env) (ns : Z) (n : name) (flags : Z) (p : option prefix6) (s : st) : (rc * option xlator) * st :=
  match xf_validate (flags2xf flags) with
  | Err err => ((Err err, None), s)
  | OK =>
    if flags2xt flags =? XT_SIIT then init_siit e Xl ns n flags p s
    else if flags2xt flags =? XT_NAT64 then init_nat64 e Xl ns n flags p s
    else ((Err EINVAL, None), s)
  end.

(** src/mod/common/xlator.c:399-422 validate_collision *)
Definition validate_collision (s : st) (ns : Z) (n : name) (flags : Z) : rc :=
  if existsb (fun i => (x_ns (i_x i) =? ns) && (flags2xt (x_flags (i_x i)) =? flags2xt flags)
                       && (name_eqb (x_name (i_x i)) n || (bit_and flags XF_NETFILTER && is_netfilter (i_x i)))) (all_instances (table s))
  then Err EEXIST else OK.

(** src/mod/common/xlator.c:427-471 __xlator_add, with result NULL *)
Definition xlator_add_locked (e : env) (new : instance) (s : st) : rc * st :=
  let publish new s :=
    let new := set_hash new in
    let l := if is_netfilter (i_x new) then nf_list s ++ [new] else nf_list s in
    (OK, with_table s (add_bucket (table s) (get_instance_hash new) new) l) in
  if is_netfilter (i_x new) then
    if negb (e_alloc e 5) then (Err ENOMEM, s)
    else match e_hook e with
         | Err err => (Err err, s)
         | OK => publish (Inst (i_id new) (i_x new) (i_hash new) (Some (next s))) (with_next (with_hooks s ((x_ns (i_x new), next s) :: hooks s) false) (next s + 1))
         end
  else publish new s.

(** src/mod/common/xlator.c:479-541 xlator_add, with result NULL *)
Definition xlator_add (e : env) (flags : Z) (n : name) (p : option prefix6) (s : st) : rc * st :=
  match basic_add_validations n flags p with
  | Err err => (Err err, s)
  | OK =>
    if negb (e_alloc e 0) then (Err ENOMEM, s) else
    let (r, s) := xlator_init e (e_ns e) n flags p s in
    match r with
    | (Err err, _) => (Err err, s)
    | (OK, None) => (Err EINVAL, s) (* does not happen *)
    | (OK, Some x) =>
      let new := Inst (next s) x None None in
      let s := with_next s (next s + 1) in
      match validate_collision s (e_ns e) n flags with
      | Err err => (Err err, destroy_jool_instance new false s)
      | OK => match xlator_add_locked e new s with
              | (OK, s) => (OK, s)
              | (Err err, s) => (Err err, destroy_jool_instance new false s)
              end
      end
    end
  end.

(** src/mod/common/xlator.c:543-574 __xlator_rm; src/mod/common/xlator.c:576-602 xlator_rm *)
Definition xlator_rm (e : env) (xt : Z) (n : name) (s : st) : rc * st :=
  match xt_validate xt with
  | Err err => (Err err, s)
  | OK =>
    match iname_validate n with
    | Err err => (Err err, s)
    | OK =>
      match find_instance s (e_ns e) xt n with
      | None => (Err ESRCH, s)
      | Some i =>
        let l := if is_netfilter (i_x i) then unlink (nf_list s) i else nf_list s in
        (OK, destroy_jool_instance i true (with_table s (hash_del (table s) i) l))
      end
    end
  end.

(** src/mod/common/xlator.c:151-166 __flush_detach, src/mod/common/xlator.c:171-183 __flush_delete, src/mod/common/xlator.c:191-200 jool_xlator_flush_net. (The instances go through
    [detached], which reverses them.) *)
Definition flush_net (ns xt : Z) (s : st) : st :=
  let gone i := (x_ns (i_x i) =? ns) && bit_and (x_flags (i_x i)) xt in
  let detached := rev (filter gone (all_instances (table s))) in
  let l := fold_left (fun l i => if is_netfilter (i_x i) then unlink l i else l) (rev detached) (nf_list s) in
  let s := with_table s (map (filter (fun i => negb (gone i))) (table s)) l in
  fold_left (fun s i => destroy_jool_instance i true s) detached s.
(** src/mod/common/xlator.c:737-758 xlator_flush *)
Definition xlator_flush (e : env) (xt : Z) (s : st) : rc * st :=
  match xt_validate xt with Err err => (Err err, s) | OK => (OK, flush_net (e_ns e) xt s) end.

(** ** Replacing *)

(** The contents of a live object *)
Definition contents (s : st) (o : Z) : option D := option_map fst (objs s o).
(** src/mod/common/xlator.c:622-642 basic_replace_validations. [None]: a database that does not exist. *)
Definition basic_replace_validations (s : st) (x : xlator) : option rc :=
  match x_dbs x with
  | Siit _ _ => Some OK
  | Nat64 p b _ =>
    match contents s p, match b with Some b => contents s b | None => None end with
    | Some dp, Some db => Some (if bib_in_pool4 W (x_ns x) dp db then OK else Err EINVAL)
    | _, _ => None
    end
  end.
(** src/mod/common/xlator.c:644-735 xlator_replace *)
Definition xlator_replace (e : env) (x : xlator) (s : st) : rc * st :=
  match basic_add_validations (x_name x) (x_flags x) (if set6 (pool6 (x_glob x)) then Some (pre6 (pool6 (x_glob x))) else None) with
  | Err err => (Err err, s)
  | OK =>
    match basic_replace_validations s x with
    | None => (Err EINVAL, with_objs s (objs s) true)
    | Some (Err err) => (Err err, s)
    | Some OK =>
      if negb (e_alloc e 6) then (Err ENOMEM, s) else
      let new := Inst (next s) x None None in
      let s := xlator_get x (with_next s (next s + 1)) in
      match find_instance s (x_ns x) (flags2xt (x_flags x)) (x_name x) with
      | None =>
        match xlator_add_locked e new s with
        | (OK, s) => (OK, s)
        | (Err err, s) => (Err err, destroy_jool_instance new false s)
        end
      | Some old =>
        if negb (xlator_get_framework (i_x old) =? xlator_get_framework x) then (Err EINVAL, destroy_jool_instance new false s)
        else if is_nat64 x && negb (prefix6_equals (pre6 (pool6 (x_glob (i_x old)))) (pre6 (pool6 (x_glob x)))) then (Err EINVAL, destroy_jool_instance new false s)
        else
          (* The old BIB and joold survive *)
          let (x', s) :=
            match x_dbs x, x_dbs (i_x old) with
            | Nat64 p b j, Nat64 _ b' j' =>
              let s := match b with Some b => kref_put b s | None => with_objs s (objs s) true end in
              let s := match j with Some j => kref_put j s | None => with_objs s (objs s) true end in
              (Xl (x_ns x) (x_name x) (x_flags x) (x_glob x) (x_stats x) (Nat64 p b' j'), s)
            | _, _ => (x, s)
            end in
          let new := set_hash (Inst (i_id new) x' (i_hash old) (i_ops old)) in
          let t := add_bucket (hash_del (table s) old) (get_instance_hash new) new in
          let l := if is_netfilter (i_x old) then new :: unlink (nf_list s) old else nf_list s in
          let s := with_table s t l in
          let x0 := i_x old in
          let old' := Inst (i_id old) (match x_dbs x0 with Nat64 p _ _ => Xl (x_ns x0) (x_name x0) (x_flags x0) (x_glob x0) (x_stats x0) (Nat64 p None None) | _ => x0 end) (i_hash old) None in
          (OK, destroy_jool_instance old' false s)
      end
    end
  end.

(** ** Finding *)

(** src/mod/common/xlator.c:776-809 xlator_find: the instance itself *)
Definition xlator_find (s : st) (ns flags : Z) (n : name) : rc * option instance :=
  match basic_validations n flags with
  | Err err => (Err err, None)
  | OK => match find_instance s ns (flags2xt flags) n with
          | None => (Err ESRCH, None)
          | Some i => if Z.land (x_flags (i_x i)) (flags2xf flags) =? 0 then (Err ESRCH, None) else (OK, Some i)
          end
  end.
(** src/mod/common/xlator.c:835-854 xlator_find_netfilter *)
Definition xlator_find_netfilter (s : st) (ns : Z) : option instance := find (fun i => ns =? x_ns (i_x i)) (nf_list s).
(** The clone: xlator_get() and memcpy() *)
Definition hold (i : instance) (s : st) : st := let s := xlator_get (i_x i) s in with_held s (i_x i :: held s).

(** src/mod/common/nl/global.c:58-135 handle_global_update. [n]: the name in the header; INAME_DEFAULT if empty
    (src/mod/common/nl/nl_common.c:9-14 get_iname) *)
Definition INAME_DEFAULT : name := [100; 101; 102; 97; 117; 108; 116].
Definition handle_global_update (e : env) (xt : Z) (n : name) (force : bool) (msg : option (list (Z * gval))) (s : st) : rc * st :=
  match xlator_find s (e_ns e) (Z.lor 12 xt) (match n with [] => INAME_DEFAULT | _ => n end) with
  | (Err err, _) => (Err err, s)
  | (OK, None) => (Err EINVAL, s) (* does not happen *)
  | (OK, Some i) =>
    let x := i_x i in
    let s := xlator_get x s in
    let (r, s) :=
      match msg with
      | None => (Err EINVAL, s)
      | Some msg => match global_update (x_glob x) xt force msg with
                    | (OK, g) => xlator_replace e (Xl (x_ns x) (x_name x) (x_flags x) g (x_stats x) (x_dbs x)) s
                    | (Err err, _) => (Err err, s)
                    end
      end in
    (r, xlator_put x s)
  end.

(** ** Atomic configuration *)

(** src/mod/common/atomic_config.c:49-56 candidate_destroy *)
Definition candidate_destroy (c : candidate) (s : st) : st :=
  let s := xlator_put (c_x c) s in with_cands s (filter (fun d => negb (c_id d =? c_id c)) (cands s)).
(** time_after(a, b): (long)(b - a) < 0 *)
Definition time_after (a b : Z) : bool := 2 ^ 63 <=? (b - a) mod 2 ^ 64.
(** src/mod/common/atomic_config.c:67-102 candidate_expire_maybe *)
Definition candidate_expire_maybe (e : env) (c : candidate) (s : st) : st :=
  if time_after (e_now e) (c_time c + e_timeout e) then candidate_destroy c s else s.
(** src/mod/common/atomic_config.c:108-134 get_candidate, the loop *)
Fixpoint search (e : env) (n : name) (l : list candidate) (s : st) : option candidate * st :=
  match l with
  | [] => (None, s)
  | c :: l =>
    if (x_ns (c_x c) =? e_ns e) && name_eqb (x_name (c_x c)) n && (c_pid c =? e_pid e) then (Some c, s)
    else search e n l (candidate_expire_maybe e c s)
  end.
(** src/mod/common/atomic_config.c:136-171 handle_init *)
Definition handle_init (e : env) (xf : Z) (n : name) (xt : Z) (s : st) : (rc * option candidate) * st :=
  if negb (e_alloc e 0) then ((Err ENOMEM, None), s) else
  let (r, s) := xlator_init e (e_ns e) n (Z.lor xf xt) None s in
  match r with
  | (OK, Some x) =>
    let c := Cand (next s) x (e_now e) (e_pid e) in
    let s := with_next s (next s + 1) in
    ((OK, Some c), with_cands s (c :: cands s))
  | (OK, None) => ((Err EINVAL, None), s) (* does not happen *)
  | (Err err, _) => ((Err err, None), s)
  end.
(** A message to the atomic configuration. [m_init]: the framework. *)
Record message := Msg { m_xt : Z; m_name : name; m_force : bool; m_init : option Z; m_globals : option (list (Z * gval)); m_bl4 : option (list E); m_eamt : option (list E);
  m_pool4 : option (list E); m_bib : option (list E); m_end : bool }.
Definition set_cand (c : candidate) (s : st) : st := with_cands s (map (fun d => if c_id d =? c_id c then c else d) (cands s)).
(** src/mod/common/atomic_config.c:173-180 handle_global: changes the candidate *)
Definition handle_global (c : candidate) (force : bool) (msg : list (Z * gval)) (s : st) : (rc * candidate) * st :=
  let x := c_x c in
  let (r, g) := global_update (x_glob x) (flags2xt (x_flags x)) force msg in
  let c := Cand (c_id c) (Xl (x_ns x) (x_name x) (x_flags x) g (x_stats x) (x_dbs x)) (c_time c) (c_pid c) in
  ((r, c), set_cand c s).
(** The loops of src/mod/common/atomic_config.c:182-296 handle_eamt, handle_denylist4, handle_pool4, handle_bib *)
Fixpoint add_entries (k : kind) (x : xlator) (force : bool) (o : Z) (l : list E) (s : st) : rc * st :=
  match l with
  | [] => (OK, s)
  | en :: l =>
    match objs s o with
    | None => (Err EINVAL, with_objs s (objs s) true)
    | Some (d, n) =>
      let (r, d) := db_add W k x force en d in
      let s := with_objs s (upd (objs s) o (Some (d, n))) false in
      match r with OK => add_entries k x force o l s | Err err => (Err err, s) end
    end
  end.
(** src/mod/common/atomic_config.c:182-296 handle_eamt, handle_denylist4, handle_pool4, handle_bib. (xlator_is_nat64() and xlator_is_siit() are in
    accordance with the union.) *)
Definition handle_entries (k : kind) (c : candidate) (force : bool) (l : list E) (s : st) : rc * st :=
  match k, x_dbs (c_x c) with
  | Eamt, Siit o _ | Denylist4, Siit _ o | Pool4, Nat64 o _ _ | Bib, Nat64 _ (Some o) _ => add_entries k (c_x c) force o l s
  | Bib, Nat64 _ None _ => (Err EINVAL, with_objs s (objs s) true)
  | _, _ => (Err EINVAL, s)
  end.
(** src/mod/common/atomic_config.c:298-313 commit *)
Definition commit (e : env) (c : candidate) (s : st) : rc * st :=
  match xlator_replace e (c_x c) s with
  | (OK, s) => (OK, candidate_destroy c s)
  | r => r
  end.
Definition opt_entries (k : kind) (c : candidate) (force : bool) (l : option (list E)) (s : st) : rc * st :=
  match l with None => (OK, s) | Some l => handle_entries k c force l s end.
(** src/mod/common/atomic_config.c:315-375 atomconfig_add, what is done to the candidate. *)
Definition serve_message (e : env) (m : message) (c : candidate) (s : st) : (rc * candidate) * st :=
  let '((r, c), s) := match m_globals m with None => ((OK, c), s) | Some g => handle_global c (m_force m) g s end in
  match r with Err err => ((Err err, c), s) | OK =>
  match opt_entries Denylist4 c (m_force m) (m_bl4 m) s with (Err err, s) => ((Err err, c), s) | (OK, s) =>
  match opt_entries Eamt c (m_force m) (m_eamt m) s with (Err err, s) => ((Err err, c), s) | (OK, s) =>
  match opt_entries Pool4 c (m_force m) (m_pool4 m) s with (Err err, s) => ((Err err, c), s) | (OK, s) =>
  match opt_entries Bib c (m_force m) (m_bib m) s with (Err err, s) => ((Err err, c), s) | (OK, s) =>
  if m_end m then let (r, s) := commit e c s in ((r, c), s) else ((OK, c), s)
  end end end end end.
(** src/mod/common/atomic_config.c:315-375 atomconfig_add *)
Definition atomconfig_add (e : env) (m : message) (s : st) : rc * st :=
  match iname_validate (m_name m) with
  | Err err => (Err err, s)
  | OK =>
    let '((r, c), s) :=
      match m_init m with
      | Some xf => handle_init e xf (m_name m) (m_xt m) s
      | None => match search e (m_name m) (cands s) s with
                | (Some c, s) => ((OK, Some c), s)
                | (None, s) => ((Err ESRCH, None), s)
                end
      end in
    match r, c with
    | OK, Some c =>
      let '((r, c), s) := serve_message e m c s in
      match r with
      | OK =>
        (* candidate->update_time = jiffies *)
        if existsb (fun d => c_id d =? c_id c) (cands s) then (OK, set_cand (Cand (c_id c) (c_x c) (e_now e) (c_pid c)) s)
        else (OK, cand_touched s)
      | Err err => (Err err, candidate_destroy c s)
      end
    | OK, None => (Err EINVAL, s) (* does not happen *)
    | Err err, _ => (Err err, s)
    end
  end.

(** ** Everything *)

(** src/mod/common/nl/nl_common.c:34-51 validate_stateness: only XT_SIIT and XT_NAT64 (both modules are taken to be loaded) *)
Inductive op :=
| Add (e : env) (xt xf : Z) (n : name) (p : option prefix6)   (* src/mod/common/nl/instance.c:101-151 handle_instance_add *)
| Rm (e : env) (xt : Z) (n : name)
| Flush (e : env) (xt : Z)
| NamespaceExit (ns xt : Z)                                    (* jool_xlator_flush_net *)
| GlobalUpdate (e : env) (xt : Z) (n : name) (force : bool) (msg : option (list (Z * gval)))
| Atomic (e : env) (m : message)
| Find (ns flags : Z) (n : name)                               (* a request or an iptables packet takes a clone *)
| Packet (ns : Z)                                              (* a packet takes a clone *)
| Touch (k : nat) (o : Z) (d : D)                              (* the [k]th clone's owner changes one of its databases *)
| Put (k : nat).                                               (* the [k]th clone is returned *)

Definition databases_of (x : xlator) : list Z :=
  x_stats x :: match x_dbs x with Siit e d => [e; d] | Nat64 p b j => p :: (match b with Some b => [b] | None => [] end) ++ (match j with Some j => [j] | None => [] end) end.
Definition if_xt (xt : Z) (r : rc * st) (s : st) : rc * st := if (xt =? XT_SIIT) || (xt =? XT_NAT64) then r else (Err EINVAL, s).
Definition step (s : st) (o : op) : rc * st :=
  match o with
  | Add e xt xf n p => if_xt xt (xlator_add e (Z.lor xf xt) n p s) s
  | Rm e xt n => if_xt xt (xlator_rm e xt n s) s
  | Flush e xt => if_xt xt (xlator_flush e xt s) s
  | NamespaceExit ns xt => (OK, flush_net ns xt s)
  | GlobalUpdate e xt n force msg => if_xt xt (handle_global_update e xt n force msg s) s
  | Atomic e m => if_xt (m_xt m) (atomconfig_add e m s) s
  | Find ns flags n => match xlator_find s ns flags n with (OK, Some i) => (OK, hold i s) | (r, _) => (r, s) end
  | Packet ns => match xlator_find_netfilter s ns with Some i => (OK, hold i s) | None => (Err ESRCH, s) end
  | Touch k o d =>
    match nth_error (held s) k with
    | Some x => if existsb (Z.eqb o) (databases_of x) then
                  match objs s o with Some (_, n) => (OK, with_objs s (upd (objs s) o (Some (d, n))) false) | None => (OK, with_objs s (objs s) true) end
                else (Err EINVAL, s)
    | None => (Err EINVAL, s)
    end
  | Put k =>
    match nth_error (held s) k with
    | Some x => (OK, xlator_put x (with_held s (firstn k (held s) ++ skipn (S k) (held s))))
    | None => (Err EINVAL, s)
    end
  end.
Fixpoint run (s : st) (l : list op) : st := match l with [] => s | o :: l => run (snd (step s o)) l end.
(** src/mod/common/xlator.c:228-239 xlator_setup *)
Definition init : st := St (repeat [] 64) [] [] (fun _ => None) [] [] 0 false false.

(** ** Listing *)

(** src/mod/common/xlator.c:891-896 offset_equals. (unsigned 32 bits of the pointer) *)
Definition offset_equals (off : Z * name) (i : instance) : bool := (fst off =? x_ns (i_x i) mod 2 ^ 32) && name_eqb (snd off) (x_name (i_x i)).
(** src/mod/common/xlator.c:898-928 xlator_foreach, with room for [cap] in the reply *)
Fixpoint foreach_loop (xt : Z) (l : list instance) (off : option (Z * name)) (cap : nat) : list instance * bool * option (Z * name) :=
  match l with
  | [] => ([], false, off)
  | i :: l =>
    if negb (bit_and (flags2xt (x_flags (i_x i))) xt) then foreach_loop xt l off cap
    else match off with
         | Some k => foreach_loop xt l (if offset_equals k i then None else off) cap
         | None => match cap with
                   | O => ([], true, None)
                   | S cap => let '(r, more, off) := foreach_loop xt l None cap in (i :: r, more, off)
                   end
         end
  end.
Definition xlator_foreach (s : st) (xt : Z) (off : option (Z * name)) (cap : nat) : rc * (list instance * bool) :=
  let '(r, more, off) := foreach_loop xt (all_instances (table s)) off cap in
  match off with None => (OK, (r, more)) | Some _ => if more then (OK, (r, more)) else (Err ESRCH, (r, more)) end.
End Inst.
