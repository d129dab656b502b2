(** Model of src/mod/common/address.c, rfc6052.c, the pool6 checks of
    db/global.c and the address selection of db/rfc6791v4.c and
    db/rfc6791v6.c.

    Representation: an IPv4 address is its host-order value (what be32_to_cpu
    returns), an IPv6 address is the 128-bit number whose big-endian octets are
    s6_addr[0..15].  Lengths are the __u8 [len] field. *)
Require Import Verif.Base.

(** errno values returned by the modelled functions. *)
Inductive errno := EINVAL | EEXIST | ESRCH | ENOMEM | ENOENT | EAGAIN | ENOSPC | E2BIG | EPERM.
Inductive rc := OK | Err (e : errno).

Definition is_ok (r : rc) : bool := match r with OK => true | Err _ => false end.

(** struct ipv4_prefix, struct ipv6_prefix: src/common/types.h *)
Record prefix4 := P4 { p4_addr : Z; p4_len : Z }.
Record prefix6 := P6 { p6_addr : Z; p6_len : Z }.

(** Types of the C fields. *)
Definition wt_prefix4 (p : prefix4) : Prop := is_u32 (p4_addr p) /\ is_u8 (p4_len p).
Definition wt_prefix6 (p : prefix6) : Prop := is_u128 (p6_addr p) /\ is_u8 (p6_len p).

(** address.c:67-70 prefix6_equals / prefix4_equals *)
Definition prefix4_equals (a b : prefix4) : bool :=
  (p4_addr a =? p4_addr b) && (p4_len a =? p4_len b).
Definition prefix6_equals (a b : prefix6) : bool :=
  (p6_addr a =? p6_addr b) && (p6_len a =? p6_len b).

(** address.c:77-80 get_prefix4_mask.  A u64 shift, truncated to u32 by the
    return type.  C leaves the shift undefined for len > 32; callers hold
    validated prefixes (hypothesis [p4_len p <= 32] in the theorems). *)
Definition get_prefix4_mask (p : prefix4) : Z :=
  u32 (u64 (Z.shiftl 4294967295 (32 - p4_len p))).

(** address.c:82-89 prefix4_contains *)
Definition prefix4_contains (p : prefix4) (a : Z) : bool :=
  let maskbits := get_prefix4_mask p in
  let prefixbits := Z.land (p4_addr p) maskbits in
  let addrbits := Z.land a maskbits in
  prefixbits =? addrbits.

(** address.c:91-96 prefix4_intersects *)
Definition prefix4_intersects (p1 p2 : prefix4) : bool :=
  prefix4_contains p1 (p4_addr p2) || prefix4_contains p2 (p4_addr p1).

(** address.c:98-101 prefix4_get_addr_count *)
Definition prefix4_get_addr_count (p : prefix4) : Z := u64 (Z.shiftl 1 (32 - p4_len p)).

(** address.c:216-220 prefix4_next *)
Definition prefix4_next (p : prefix4) : Z := u64 (prefix4_get_addr_count p + p4_addr p).

(** address.c:103-107 prefix6_contains.  The kernel's ipv6_prefix_equal (not
    part of the repository) is taken to compare the first [len] bits. *)
Definition prefix6_contains (p : prefix6) (a : Z) : bool :=
  forallb (fun i => Bool.eqb (msb_bit 128 (p6_addr p) (Z.of_nat i)) (msb_bit 128 a (Z.of_nat i)))
          (seq 0 (Z.to_nat (p6_len p))).

(** address.c:109-131 prefix4_validate (the NULL check is dropped) *)
Definition prefix4_validate (p : prefix4) : rc :=
  if p4_len p >? 32 then Err EINVAL
  else
    let suffix_mask := u32 (Z.lnot (get_prefix4_mask p)) in
    if negb (Z.land (p4_addr p) suffix_mask =? 0) then Err EINVAL else OK.

(** address.c:173-177 addr4_get_bit; pos < 32 *)
Definition addr4_get_bit (a : Z) (pos : Z) : bool :=
  negb (Z.land a (u32 (Z.shiftl 1 (31 - pos))) =? 0).

(** address.c:179-187 addr4_set_bit *)
Definition addr4_set_bit (a : Z) (pos : Z) (v : bool) : Z :=
  let mask := u32 (Z.shiftl 1 (31 - pos)) in
  if v then Z.lor a mask else Z.land a (u32 (Z.lnot mask)).

(** s6_addr32[q] of an IPv6 address, in host order. *)
Definition quadrant (a : Z) (q : Z) : Z := (a / 2 ^ (32 * (3 - q))) mod 2^32.

(** address.c:189-200 addr6_get_bit; pos < 128 *)
Definition addr6_get_bit (a : Z) (pos : Z) : bool :=
  let quad := quadrant a (Z.shiftr pos 5) in
  let mask := u32 (Z.shiftl 1 (31 - Z.land pos 31)) in
  negb (Z.land quad mask =? 0).

(** address.c:202-214 addr6_set_bit: rewrites one quadrant in place. *)
Definition addr6_set_bit (a : Z) (pos : Z) (v : bool) : Z :=
  let q := Z.shiftr pos 5 in
  let quad := quadrant a q in
  let mask := u32 (Z.shiftl 1 (31 - Z.land pos 31)) in
  let quad' := if v then Z.lor quad mask else Z.land quad (u32 (Z.lnot mask)) in
  a - quad * 2 ^ (32 * (3 - q)) + quad' * 2 ^ (32 * (3 - q)).

(** address.c:133-156 prefix6_validate: rejects if any bit in len..127 is set *)
Definition prefix6_validate (p : prefix6) : rc :=
  if p6_len p >? 128 then Err EINVAL
  else if existsb (fun i => addr6_get_bit (p6_addr p) (Z.of_nat i))
                  (seq (Z.to_nat (p6_len p)) (128 - Z.to_nat (p6_len p)))
       then Err EINVAL else OK.

(** address.c:245-266 prefix4_has_subnet_scope *)
Definition scope_subnets : list prefix4 :=
  [P4 0x00000000 8; P4 0x7f000000 8; P4 0xa9fe0000 16; P4 0xe0000000 4; P4 0xffffffff 32].
Definition prefix4_has_subnet_scope (p : prefix4) : bool :=
  existsb (prefix4_intersects p) scope_subnets.

(** address.c:158-171 prefix4_validate_scope *)
Definition prefix4_validate_scope (p : prefix4) (force : bool) : rc :=
  if negb force && prefix4_has_subnet_scope p then Err EINVAL else OK.

(** address.c:226-238 addr4_is_scope_subnet, with the kernel predicates
    ipv4_is_zeronet (top octet 0), ipv4_is_loopback (127/8),
    ipv4_is_linklocal_169 (169.254/16), ipv4_is_multicast (224/4),
    ipv4_is_lbcast (255.255.255.255). *)
Definition addr4_is_scope_subnet (a : Z) : bool :=
  (Z.land a 0xff000000 =? 0)
  || (Z.land a 0xff000000 =? 0x7f000000)
  || (Z.land a 0xffff0000 =? 0xa9fe0000)
  || (Z.land a 0xf0000000 =? 0xe0000000)
  || (a =? 0xffffffff).

(** db/global.c:12-21 validate_pool6_len *)
Definition validate_pool6_len (len : Z) : rc :=
  if (len =? 32) || (len =? 40) || (len =? 48) then OK
  else if (len =? 56) || (len =? 64) || (len =? 96) then OK
  else Err EINVAL.

(** db/global.c:23-31 validate_ubit *)
Definition validate_ubit (p : prefix6) (force : bool) : rc :=
  if force || (octet 16 (p6_addr p) 8 =? 0) then OK else Err EINVAL.

(** db/global.c:33-49 pool6_validate, for a prefix that is set *)
Definition pool6_validate (p : prefix6) (force : bool) : rc :=
  match prefix6_validate p with
  | Err e => Err e
  | OK => match validate_pool6_len (p6_len p) with
          | Err e => Err e
          | OK => validate_ubit p force
          end
  end.

(** rfc6052.c:13-63 __rfc6052_6to4.  [None] is -EINVAL.  Reads of
    s6_addr32[1] and s6_addr32[3] are written as their four octets. *)
Definition rfc6052_6to4 (p : prefix6) (src : Z) : option Z :=
  if negb (prefix6_contains p src) then None
  else
    let s i := octet 16 src (Z.to_nat i) in
    if p6_len p =? 32 then Some (be_of [s 4; s 5; s 6; s 7])
    else if p6_len p =? 40 then Some (be_of [s 5; s 6; s 7; s 9])
    else if p6_len p =? 48 then Some (be_of [s 6; s 7; s 9; s 10])
    else if p6_len p =? 56 then Some (be_of [s 7; s 9; s 10; s 11])
    else if p6_len p =? 64 then Some (be_of [s 9; s 10; s 11; s 12])
    else if p6_len p =? 96 then Some (be_of [s 12; s 13; s 14; s 15])
    else None.

(** rfc6052.c:79-143 __rfc6052_4to6.  The memset leaves every octet that is
    not assigned at zero. *)
Definition rfc6052_4to6 (p : prefix6) (src : Z) : option Z :=
  let q i := octet 16 (p6_addr p) (Z.to_nat i) in
  let a i := octet 4 src (Z.to_nat i) in
  if p6_len p =? 32 then
    Some (be_of [q 0; q 1; q 2; q 3; a 0; a 1; a 2; a 3; 0; 0; 0; 0; 0; 0; 0; 0])
  else if p6_len p =? 40 then
    Some (be_of [q 0; q 1; q 2; q 3; q 4; a 0; a 1; a 2; 0; a 3; 0; 0; 0; 0; 0; 0])
  else if p6_len p =? 48 then
    Some (be_of [q 0; q 1; q 2; q 3; q 4; q 5; a 0; a 1; 0; a 2; a 3; 0; 0; 0; 0; 0])
  else if p6_len p =? 56 then
    Some (be_of [q 0; q 1; q 2; q 3; q 4; q 5; q 6; a 0; 0; a 1; a 2; a 3; 0; 0; 0; 0])
  else if p6_len p =? 64 then
    Some (be_of [q 0; q 1; q 2; q 3; q 4; q 5; q 6; q 7; 0; a 0; a 1; a 2; a 3; 0; 0; 0])
  else if p6_len p =? 96 then
    Some (be_of [q 0; q 1; q 2; q 3; q 4; q 5; q 6; q 7; q 8; q 9; q 10; q 11; a 0; a 1; a 2; a 3])
  else None.

(** db/rfc6791v4.c:6-21 get_pool_address.  [n] is either random or the hop
    limit of the packet. *)
Definition rfc6791v4_get_pool_address (pool : prefix4) (n : Z) : Z :=
  let n := Z.land n (u32 (Z.lnot (get_prefix4_mask pool))) in
  Z.lor (p4_addr pool) n.

(** db/rfc6791v6.c:9-42 get_pool_address.  [rnd] supplies the random octets:
    [rnd i] is what lands on octet [i] of the result, [rb] is randomized_byte. *)
Definition rfc6791v6_get_pool_address (prefix : prefix6) (rnd : nat -> Z) (rb : Z) : Z :=
  let seg := Z.to_nat (Z.shiftr (p6_len prefix) 3) in
  let modulus := Z.land (p6_len prefix) 7 in
  let orig i := octet 16 (p6_addr prefix) i in
  if modulus =? 0 then
    be_of (map (fun i => if (i <? seg)%nat then orig i else rnd i) (seq 0 16))
  else
    let rb' := Z.land rb (Z.shiftl 1 (8 - modulus) - 1) in
    be_of (map (fun i => if (i <? seg)%nat then orig i
                         else if (i =? seg)%nat then Z.lor (orig i) rb'
                         else rnd i) (seq 0 16)).
