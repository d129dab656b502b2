(** The global settings of an instance.
    Sources: src/common/global.c, src/common/config.c,
    src/mod/common/nl/global.c, src/mod/common/nl/attribute.c,
    src/mod/common/db/global.c.

    Netlink attributes are taken as parsed: (type, value) pairs. The kernel's
    nla_parse_nested() and nla_validate() are those of Linux 5.2 and later, which
    are strict: attributes whose type or length disagrees with the policy are
    rejected. *)
Require Import Verif.Base Verif.Addr_Model.

(** src/common/types.h:28-37: XT_SIIT, XT_NAT64, XF_NETFILTER, XF_IPTABLES *)
Definition XT_SIIT : Z := 1.
Definition XT_NAT64 : Z := 2.
Definition XT_ANY : Z := 3.
Definition XF_NETFILTER : Z := 4.
Definition XF_IPTABLES : Z := 8.
(** C's "if (a & b)" *)
Definition bit_and (a b : Z) : bool := negb (Z.land a b =? 0).

(** src/common/config.h:217-261 enum joolnl_attr_global: 1 to 32, in the order of globals_metadata. *)
Definition JNLAG_ENABLED : Z := 1.
Definition JNLAG_POOL6 : Z := 2.
Definition JNLAG_LOWEST_IPV6_MTU : Z := 3.
Definition JNLAG_DEBUG : Z := 4.
Definition JNLAG_RESET_TC : Z := 5.
Definition JNLAG_RESET_TOS : Z := 6.
Definition JNLAG_TOS : Z := 7.
Definition JNLAG_PLATEAUS : Z := 8.
Definition JNLAG_COMPUTE_CSUM_ZERO : Z := 9.
Definition JNLAG_HAIRPIN_MODE : Z := 10.
Definition JNLAG_RANDOMIZE_ERROR_ADDR : Z := 11.
Definition JNLAG_POOL6791V6 : Z := 12.
Definition JNLAG_POOL6791V4 : Z := 13.
Definition JNLAG_DROP_BY_ADDR : Z := 14.
Definition JNLAG_DROP_EXTERNAL_TCP : Z := 15.
Definition JNLAG_DROP_ICMP6_INFO : Z := 16.
Definition JNLAG_SRC_ICMP6_BETTER : Z := 17.
Definition JNLAG_F_ARGS : Z := 18.
Definition JNLAG_HANDLE_RST : Z := 19.
Definition JNLAG_TTL_TCP_EST : Z := 20.
Definition JNLAG_TTL_TCP_TRANS : Z := 21.
Definition JNLAG_TTL_UDP : Z := 22.
Definition JNLAG_TTL_ICMP : Z := 23.
Definition JNLAG_BIB_LOGGING : Z := 24.
Definition JNLAG_SESSION_LOGGING : Z := 25.
Definition JNLAG_MAX_STORED_PKTS : Z := 26.
Definition JNLAG_JOOLD_ENABLED : Z := 27.
Definition JNLAG_JOOLD_FLUSH_ASAP : Z := 28.
Definition JNLAG_JOOLD_FLUSH_DEADLINE : Z := 29.
Definition JNLAG_JOOLD_CAPACITY : Z := 30.
Definition JNLAG_JOOLD_MAX_PAYLOAD : Z := 31.
Definition JNLAG_JOOLD_MAX_SESSIONS_PER_PACKET : Z := 32.

(** src/common/types.h:121-127 struct mtu_plateaus: [values] has PLATEAUS_MAX (64) elements. *)
Record mtu_plateaus := Plateaus { values : list Z; count : Z }.
(** src/common/config.h:316-326 struct config_prefix6, config_prefix4 *)
Record config_prefix6 := C6 { set6 : bool; pre6 : prefix6 }.
Record config_prefix4 := C4 { set4 : bool; pre4 : prefix4 }.
(** src/common/config.h:468-579 struct jool_globals. The numbers and booleans are in [num], by
    attribute number. (The union of the settings of SIIT and NAT64 is not
    modelled: no instance uses those of the other type.) *)
Record globals := Globals { num : Z -> Z; pool6 : config_prefix6; plateaus : mtu_plateaus; p6791v6 : config_prefix6; p6791v4 : config_prefix4 }.

Definition set_num (g : globals) (id v : Z) : globals :=
  Globals (fun i => if i =? id then v else num g i) (pool6 g) (plateaus g) (p6791v6 g) (p6791v4 g).

(** An attribute's value: of a u8 or u32 attribute, of a list of plateaus, of a
    prefix (its length and address attributes, if they are there). *)
Inductive gval := VU8 (v : Z) | VU32 (v : Z) | VPlateaus (l : list Z) | VPrefix6 (len addr : option Z) | VPrefix4 (len addr : option Z).
Inductive kind := NLA_U8 | NLA_U32 | NLA_NESTED.
(** src/common/config.c:83-127 siit_globals_policy, nat64_globals_policy *)
Definition policy (xt id : Z) : option kind :=
  if existsb (Z.eqb id) [1; 4; 5; 6; 7] then Some NLA_U8
  else if id =? 3 then Some NLA_U32
  else if (id =? 2) || (id =? 8) then Some NLA_NESTED
  else if xt =? XT_SIIT then
    (if existsb (Z.eqb id) [9; 10; 11] then Some NLA_U8 else if (id =? 12) || (id =? 13) then Some NLA_NESTED else None)
  else
    (if existsb (Z.eqb id) [16; 17; 18; 19; 24; 25; 14; 15; 27; 28] then Some NLA_U8
     else if existsb (Z.eqb id) [20; 21; 22; 23; 26; 29; 30; 31; 32] then Some NLA_U32 else None).
Definition kind_ok (k : option kind) (v : gval) : bool :=
  match k, v with
  | Some NLA_U8, VU8 _ => true
  | Some NLA_U32, VU32 _ => true
  | Some NLA_NESTED, (VPlateaus _ | VPrefix6 _ _ | VPrefix4 _ _) => true
  | _, _ => false
  end.
(** src/mod/common/nl/attribute.c:852-864 jnla_parse_nested: the last attribute of each type *)
Definition jnla_parse_nested (xt : Z) (msg : list (Z * gval)) : option (Z -> option gval) :=
  if forallb (fun a => kind_ok (policy xt (fst a)) (snd a)) msg
  then Some (fun id => option_map snd (find (fun a => fst a =? id) (rev msg)))
  else None.

(** src/mod/common/nl/attribute.c:147-175 jnla_get_prefix6_optional *)
Definition jnla_get_prefix6_optional (v : gval) (out : config_prefix6) : rc * config_prefix6 :=
  match v with
  | VPrefix6 (Some len) (Some addr) => (OK, C6 true (P6 addr len))
  | VPrefix6 (Some _) None => (OK, C6 false (pre6 out))
  | _ => (Err EINVAL, out)
  end.
(** src/mod/common/nl/attribute.c:196-224 jnla_get_prefix4_optional *)
Definition jnla_get_prefix4_optional (v : gval) (out : config_prefix4) : rc * config_prefix4 :=
  match v with
  | VPrefix4 (Some len) (Some addr) => (OK, C4 true (P4 addr len))
  | VPrefix4 (Some _) None => (OK, C4 false (pre4 out))
  | _ => (Err EINVAL, out)
  end.

(** The kernel's sort() with src/mod/common/nl/attribute.c:469-479 u16_compare and u16_swap, taken to
    sort: descending. *)
Fixpoint insert_desc (x : Z) (l : list Z) : list Z :=
  match l with [] => [x] | y :: t => if y <? x then x :: l else y :: insert_desc x t end.
Definition sort_desc (l : list Z) : list Z := fold_right insert_desc [] l.
Definition set_nth (n : nat) (x : Z) (l : list Z) : list Z := firstn n l ++ x :: skipn (S n) l.

(** src/mod/common/nl/attribute.c:489-497 validate_plateaus, the loop: [n] iterations left *)
Fixpoint compact (n i j : nat) (vs : list Z) : nat * list Z :=
  match n with
  | O => (i, vs)
  | S n =>
    let vj := nth j vs 0 in
    if vj =? 0 then (i, vs)
    else if negb (nth i vs 0 =? vj) then compact n (S i) (S j) (set_nth (S i) vj vs)
    else compact n i (S j) vs
  end.
(** src/mod/common/nl/attribute.c:481-507 validate_plateaus *)
Definition validate_plateaus (p : mtu_plateaus) : rc * mtu_plateaus :=
  let n := Z.to_nat (count p) in
  let vs := sort_desc (firstn n (values p)) ++ skipn n (values p) in
  let (i, vs) := compact (n - 1) 0 1 vs in
  if nth 0 vs 0 =? 0 then (Err EINVAL, Plateaus vs (count p)) else (OK, Plateaus vs (Z.of_nat i + 1)).
(** src/mod/common/nl/attribute.c:510-536 jnla_get_plateaus *)
Fixpoint read_plateaus (l : list Z) (p : mtu_plateaus) : rc * mtu_plateaus :=
  match l with
  | [] => (OK, p)
  | x :: l => if 64 <=? count p then (Err EINVAL, p) else read_plateaus l (Plateaus (set_nth (Z.to_nat (count p)) x (values p)) (count p + 1))
  end.
Definition jnla_get_plateaus (l : list Z) (p : mtu_plateaus) : rc * mtu_plateaus :=
  match read_plateaus l (Plateaus (values p) 0) with
  | (OK, p) => validate_plateaus p
  | r => r
  end.

(** src/mod/common/db/global.c:33-49 pool6_validate: nothing to check if unset *)
Definition validate_pool6 (p : config_prefix6) (force : bool) : rc := if set6 p then pool6_validate (pre6 p) force else OK.
(** src/common/global.c:143-156 validate_prefix6791v4 *)
Definition validate_prefix6791v4 (p : config_prefix4) (force : bool) : rc :=
  if negb (set4 p) then OK
  else match prefix4_validate (pre4 p) with Err e => Err e | OK => prefix4_validate_scope (pre4 p) force end.

(** src/common/global.c:116-274, the nl2raw functions; src/common/global.c:1100-1106 joolnl_global_nl2raw. 1000 * UDP_MIN, TCP_EST,
    TCP_TRANS: src/common/constants.h:16-34. *)
Definition nl2raw (force : bool) (id : Z) (v : gval) (g : globals) : rc * globals :=
  if id =? JNLAG_POOL6 then
    let (e, p) := jnla_get_prefix6_optional v (pool6 g) in
    let g := Globals (num g) p (plateaus g) (p6791v6 g) (p6791v4 g) in
    match e with OK => (validate_pool6 p force, g) | _ => (e, g) end
  else if id =? JNLAG_PLATEAUS then
    match v with
    | VPlateaus l => let (e, p) := jnla_get_plateaus l (plateaus g) in (e, Globals (num g) (pool6 g) p (p6791v6 g) (p6791v4 g))
    | _ => (Err EINVAL, g)
    end
  else if id =? JNLAG_POOL6791V6 then
    let (e, p) := jnla_get_prefix6_optional v (p6791v6 g) in
    let g := Globals (num g) (pool6 g) (plateaus g) p (p6791v4 g) in
    match e with OK => ((if set6 p then prefix6_validate (pre6 p) else OK), g) | _ => (e, g) end
  else if id =? JNLAG_POOL6791V4 then
    let (e, p) := jnla_get_prefix4_optional v (p6791v4 g) in
    let g := Globals (num g) (pool6 g) (plateaus g) (p6791v6 g) p in
    match e with OK => (validate_prefix6791v4 p force, g) | _ => (e, g) end
  else
    match v with
    | VU8 x =>
      if id =? JNLAG_TOS then (OK, set_num g id x)
      else if id =? JNLAG_HAIRPIN_MODE then
        (if negb (x =? 0) && negb (x =? 1) && negb (x =? 2) then (Err EINVAL, g) else (OK, set_num g id x))
      else if id =? JNLAG_F_ARGS then (if 15 <? x then (Err EINVAL, g) else (OK, set_num g id x))
      else (OK, set_num g id (if x =? 0 then 0 else 1))
    | VU32 x =>
      if id =? JNLAG_LOWEST_IPV6_MTU then (if x <? 1280 then (Err EINVAL, g) else (OK, set_num g id x))
      else if id =? JNLAG_TTL_UDP then (if x <? 1000 * (2 * 60) then (Err EINVAL, g) else (OK, set_num g id x))
      else if id =? JNLAG_TTL_TCP_EST then (if x <? 1000 * (2 * 60 * 60) then (Err EINVAL, g) else (OK, set_num g id x))
      else if id =? JNLAG_TTL_TCP_TRANS then (if x <? 1000 * (4 * 60) then (Err EINVAL, g) else (OK, set_num g id x))
      else (OK, set_num g id x)
    | _ => (Err EINVAL, g)
    end.

(** src/common/global.c:704-1015 globals_metadata: the numbers, in order, and the types of instances they
    are about *)
Definition metadata : list (Z * Z) :=
  map (fun i => (i, XT_ANY)) [1; 2; 3; 4; 5; 6; 7; 8] ++ map (fun i => (i, XT_SIIT)) [9; 10; 11; 12; 13]
  ++ map (fun i => (i, XT_NAT64)) [14; 15; 16; 17; 18; 19; 20; 21; 22; 23; 24; 25; 26; 27; 28; 29; 30; 31; 32].

(** src/mod/common/nl/global.c:159-174 global_update, the loop *)
Fixpoint update_each (force : bool) (xt : Z) (attrs : Z -> option gval) (metas : list (Z * Z)) (g : globals) : rc * globals :=
  match metas with
  | [] => (OK, g)
  | (id, mxt) :: metas =>
    if negb (bit_and mxt xt) then update_each force xt attrs metas g
    else match attrs id with
         | None => update_each force xt attrs metas g
         | Some v => match nl2raw force id v g with
                     | (OK, g) => update_each force xt attrs metas g
                     | r => r
                     end
         end
  end.
(** src/mod/common/nl/global.c:131-177 global_update: what is left in the structure, too. *)
Definition global_update (g : globals) (xt : Z) (force : bool) (msg : list (Z * gval)) : rc * globals :=
  if (xt =? XT_SIIT) || (xt =? XT_NAT64) then
    match jnla_parse_nested xt msg with
    | None => (Err EINVAL, g)
    | Some attrs => update_each force xt attrs metadata g
    end
  else (Err EINVAL, g).

(** src/mod/common/db/global.c:51-121 globals_init. [g0]: what was in the memory. *)
Definition globals_init (g0 : globals) (xt : Z) (p : option prefix6) : rc * globals :=
  let p6 := match p with Some p => C6 true p | None => C6 false (pre6 (pool6 g0)) end in
  match validate_pool6 p6 true with
  | Err e => (Err e, g0)
  | OK =>
    let nums := if xt =? XT_SIIT then [(9, 0); (10, 2); (11, 1)]
      else [(16, 0); (17, 1); (18, 11); (19, 0); (20, 1000 * (2 * 60 * 60)); (21, 1000 * (4 * 60)); (22, 1000 * (5 * 60)); (23, 1000 * (1 * 60));
            (24, 0); (25, 0); (14, 0); (15, 0); (26, 10); (27, 0); (28, 0); (29, 1000 * 2); (30, 512); (31, 1452); (32, (1500 - 40 - 8 - 4) / 40)] in
    let nums := [(1, 1); (4, 0); (5, 0); (6, 0); (7, 0); (3, 1280)] ++ nums in
    let n i := match find (fun a => fst a =? i) nums with Some a => snd a | None => num g0 i end in
    let ps := [65535; 32000; 17914; 8166; 4352; 2002; 1492; 1006; 508; 296; 68] in
    let pl := Plateaus (ps ++ skipn 11 (values (plateaus g0))) 11 in
    if xt =? XT_SIIT then (OK, Globals n p6 pl (C6 false (pre6 (p6791v6 g0))) (C4 false (pre4 (p6791v4 g0))))
    else if xt =? XT_NAT64 then (OK, Globals n p6 pl (p6791v6 g0) (p6791v4 g0))
    else (Err EINVAL, g0)
  end.

(** src/mod/common/db/global.c:123-148 globals_foreach and src/mod/common/nl/global.c:11-15 serialize_global: the numbers
    of the settings in a reply with room for [cap], and whether there are more *)
Fixpoint globals_foreach (xt : Z) (metas : list (Z * Z)) (offset : Z) (cap : nat) : list Z * bool :=
  match metas with
  | [] => ([], false)
  | (id, mxt) :: metas =>
    if negb (bit_and mxt xt) then globals_foreach xt metas offset cap
    else if negb (offset =? 0) then globals_foreach xt metas (if id =? offset then 0 else offset) cap
    else match cap with
         | O => ([], true)
         | S cap => let (l, more) := globals_foreach xt metas offset cap in (id :: l, more)
         end
  end.
