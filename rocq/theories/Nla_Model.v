(** Model of src/mod/common/nl/attribute.c and src/usr/nl/attribute.c: how
    entries of the databases are written in Netlink messages and read from
    them, octet by octet, on both sides of the socket. Also the policies of
    src/common/config.c.

    The functions of Netlink itself are not part of the repository: nla_put(),
    nla_nest_start(), nla_nest_end(), nla_nest_cancel(), nla_parse(),
    nla_parse_nested(), nla_validate(), nla_get_u8() and so on. There are two
    of each: Linux's (lib/nlattr.c, include/net/netlink.h), used by the module,
    and libnl's (lib/attr.c), used by the client. They are modelled here as those
    libraries document them.

    A message under construction is the octets of its attributes so far; it has
    room for [cap] octets. Reading an octet that does not belong to the
    attribute, or through a null pointer, is the outcome [Stray]. Error numbers
    of Netlink's functions are all EINVAL. *)
Require Import Verif.Base Verif.Addr_Model Verif.Pool4_Model Verif.Bib_Model Verif.Glob_Model Verif.Inst_Model Verif.File_Model.

(** The machine: whether its byte order is big-endian; whether its Linux
    is 5.2 or newer (attributes are then validated strictly, and the module's
    nested attributes have the flag). *)
Record host := Host { h_be : bool; h_strict : bool }.

Section Nla.
Context (h : host).

Definition zlen {A} (l : list A) : Z := Z.of_nat (length l).

(** ** Netlink's functions *)

(** [n] octets of memory holding a number, in the machine's order *)
Definition host_octets (n : nat) (v : Z) : list Z := if h_be h then octets n v else rev (octets n v).
Definition host_number (l : list Z) : Z := be_of (if h_be h then l else rev l).

(** include/uapi/linux/netlink.h: NLA_F_NESTED, NLA_TYPE_MASK, NLA_ALIGN *)
Definition NLA_F_NESTED : Z := 32768.
Definition NLA_TYPE_MASK : Z := 16383.
Definition padding (n : Z) : Z := (- n) mod 4.

(** Messages under construction, after trying to write something *)
Inductive put := Put (b : list Z) | NoRoom (b : list Z).

(** nla_put(): the header (struct nlattr: nla_len, nla_type), the data, the padding. Linux's and libnl's. *)
Definition nla_put (cap ty : Z) (data : list Z) (b : list Z) : put :=
  let b' := b ++ host_octets 2 (4 + zlen data) ++ host_octets 2 ty ++ data ++ repeat 0 (Z.to_nat (padding (zlen data))) in
  if cap <? zlen b' then NoRoom b else Put b'.
Definition nla_put_u8 (cap ty v : Z) : list Z -> put := nla_put cap ty (host_octets 1 v).
Definition nla_put_u16 (cap ty v : Z) : list Z -> put := nla_put cap ty (host_octets 2 v).
Definition nla_put_u32 (cap ty v : Z) : list Z -> put := nla_put cap ty (host_octets 4 v).

(** Giving up at the first attribute that does not fit *)
Definition andthen (f g : list Z -> put) (b : list Z) : put := match f b with Put b => g b | NoRoom b => NoRoom b end.
Definition done (b : list Z) : put := Put b.

(** nla_nest_cancel(): trims the message back to where the attribute started. *)
Definition nla_nest_cancel (start : nat) (b : list Z) : list Z := firstn start b.
(** nla_nest_end(), Linux: sets the attribute's length. *)
Definition nla_nest_end_k (start : nat) (b : list Z) : list Z :=
  firstn start b ++ host_octets 2 (u16 (zlen b - Z.of_nat start)) ++ skipn (start + 2) b.
(** nla_nest_end(), libnl: attributes that are empty, or too large, are removed. *)
Definition nla_nest_end_u (start : nat) (b : list Z) : list Z :=
  let len := zlen b - Z.of_nat start in
  if (65535 <? len) || (len =? 4) then nla_nest_cancel start b else nla_nest_end_k start b.
(** nla_nest_start() of the module; since Linux 5.2 it sets the flag *)
Definition nla_nest_start_k (cap ty : Z) : list Z -> put := nla_put cap (if h_strict h then Z.lor ty NLA_F_NESTED else ty) [].
(** src/usr/nl/attribute.c:97-100 jnla_nest_start *)
Definition nla_nest_start_u (cap ty : Z) : list Z -> put := nla_put cap (Z.lor NLA_F_NESTED ty) [].

(** The functions below that write a nested attribute all do it the same way. *)
Definition nest (start : list Z -> put) (finish : nat -> list Z -> list Z) (body : list Z -> put) (b : list Z) : put :=
  match start b with
  | NoRoom b => NoRoom b
  | Put b1 =>
    match body b1 with
    | Put b2 => Put (finish (length b) b2)
    | NoRoom b2 => NoRoom (nla_nest_cancel (length b) b2)
    end
  end.

(** An attribute in memory: nla_type, and the nla_len - 4 octets of data *)
Record attr := Attr { a_type : Z; a_data : list Z }.
Definition nla_type (a : attr) : Z := Z.land (a_type a) NLA_TYPE_MASK.
Definition is_nested (a : attr) : bool := negb (Z.land (a_type a) NLA_F_NESTED =? 0).

(** nla_ok(), nla_next(): the first attribute, and the octets after it *)
Definition first_attr (l : list Z) : option (attr * list Z) :=
  let n := host_number (firstn 2 l) in
  if (zlen l <? 4) || (n <? 4) || (zlen l <? n) then None
  else Some (Attr (host_number (firstn 2 (skipn 2 l))) (firstn (Z.to_nat (n - 4)) (skipn 4 l)), skipn (Z.to_nat (n + padding n)) l).
(** nla_for_each_attr(): the attributes, and what is left *)
Fixpoint each_attr (fuel : nat) (l : list Z) : list attr * list Z :=
  match fuel with
  | O => ([], l)
  | S fuel =>
    match first_attr l with
    | None => ([], l)
    | Some (a, rest) => let (r, left) := each_attr fuel rest in (a :: r, left)
    end
  end.
Definition attributes (l : list Z) : list attr * list Z := each_attr (length l) l.

(** struct nla_policy. [PAddr n]: JOOLNL_ADDR6_POLICY, JOOLNL_ADDR4_POLICY
    (src/common/config.h:93-113), which is NLA_BINARY of at most [n] octets in the module and
    NLA_UNSPEC of exactly [n] octets in the client. *)
Inductive pol := PUnspec | PU8 | PU16 | PU32 | PNested | PAddr (n : Z) | PBinary.
Definition policy := Z -> pol.

(** validate_nla() of Linux *)
Definition validate_k (p : pol) (a : attr) : bool :=
  let n := zlen (a_data a) in
  match p with
  | PUnspec => negb (h_strict h)
  | PU8 => if h_strict h then negb (is_nested a) && (n =? 1) else 1 <=? n
  | PU16 => if h_strict h then negb (is_nested a) && (n =? 2) else 2 <=? n
  | PU32 => if h_strict h then negb (is_nested a) && (n =? 4) else 4 <=? n
  | PNested => (if h_strict h then is_nested a else true) && ((n =? 0) || (4 <=? n))
  | PAddr m => (if h_strict h then negb (is_nested a) else true) && (n <=? m)
  | PBinary => if h_strict h then negb (is_nested a) else true
  end.
(** validate_nla() of libnl *)
Definition validate_u (p : pol) (a : attr) : bool :=
  let n := zlen (a_data a) in
  match p with
  | PUnspec | PNested | PBinary => true
  | PU8 => 1 <=? n
  | PU16 => 2 <=? n
  | PU32 => 4 <=? n
  | PAddr m => n =? m
  end.

(** What a function that reads an attribute yields *)
Inductive rd (A : Type) := Got (a : A) | Bad (e : errno) | Stray.
Arguments Got {A} a.
Arguments Bad {A} e.
Arguments Stray {A}.
Definition rbind {A B} (r : rd A) (f : A -> rd B) : rd B := match r with Got a => f a | Bad e => Bad e | Stray => Stray end.

(** struct nlattr *tb[] *)
Definition table := Z -> option attr.
Definition tset (t : table) (i : Z) (a : attr) : table := fun j => if j =? i then Some a else t j.
Definition empty : table := fun _ => None.

(** __nla_validate_parse() of Linux: the attributes, one by one *)
Fixpoint parse_each_k (maxtype : Z) (p : policy) (l : list attr) (t : table) : rd table :=
  match l with
  | [] => Got t
  | a :: l =>
    let ty := nla_type a in
    if (ty =? 0) || (maxtype <? ty) then (if h_strict h then Bad EINVAL else parse_each_k maxtype p l t)
    else if validate_k (p ty) a then parse_each_k maxtype p l (tset t ty a)
    else Bad EINVAL
  end.
Definition nla_parse_k (maxtype : Z) (p : policy) (data : list Z) : rd table :=
  let (l, left) := attributes data in
  rbind (parse_each_k maxtype p l empty) (fun t => match left with [] => Got t | _ => if h_strict h then Bad EINVAL else Got t end).
(** nla_parse_nested() of Linux *)
Definition nla_parse_nested_k (maxtype : Z) (a : attr) (p : policy) : rd table :=
  if h_strict h && negb (is_nested a) then Bad EINVAL else nla_parse_k maxtype p (a_data a).
(** nla_parse() of libnl *)
Fixpoint parse_each_u (maxtype : Z) (p : policy) (l : list attr) (t : table) : rd table :=
  match l with
  | [] => Got t
  | a :: l =>
    let ty := nla_type a in
    if maxtype <? ty then parse_each_u maxtype p l t
    else if validate_u (p ty) a then parse_each_u maxtype p l (tset t ty a)
    else Bad EINVAL
  end.
Definition nla_parse_u (maxtype : Z) (p : policy) (data : list Z) : rd table := parse_each_u maxtype p (fst (attributes data)) empty.

(** nla_get_u8(), nla_get_u16(), nla_get_u32(): no checks *)
Definition nla_get (n : nat) (a : attr) : rd Z := if (length (a_data a) <? n)%nat then Stray else Got (host_number (firstn n (a_data a))).
(** ... of an attribute that may be missing *)
Definition nla_get_ptr (n : nat) (a : option attr) : rd Z := match a with Some a => nla_get n a | None => Stray end.

(** ** Policies *)
(** src/common/config.h:84-206, the numbers of the attributes *)
Definition JNLAL_ENTRY : Z := 1.
Definition JNLAL_MAX : Z := 1.
Definition JNLAP_ADDR : Z := 1.
Definition JNLAP_LEN : Z := 2.
Definition JNLAP_MAX : Z := 2.
Definition JNLAT_ADDR : Z := 1.
Definition JNLAT_PORT : Z := 2.
Definition JNLAT_MAX : Z := 2.
Definition JNLAE_PREFIX6 : Z := 1.
Definition JNLAE_PREFIX4 : Z := 2.
Definition JNLAE_MAX : Z := 2.
Definition JNLAP4_MARK : Z := 1.
Definition JNLAP4_ITERATIONS : Z := 2.
Definition JNLAP4_FLAGS : Z := 3.
Definition JNLAP4_PROTO : Z := 4.
Definition JNLAP4_PREFIX : Z := 5.
Definition JNLAP4_PORT_MIN : Z := 6.
Definition JNLAP4_PORT_MAX : Z := 7.
Definition JNLAP4_MAX : Z := 7.
Definition JNLAB_SRC6 : Z := 1.
Definition JNLAB_SRC4 : Z := 2.
Definition JNLAB_PROTO : Z := 3.
Definition JNLAB_STATIC : Z := 4.
Definition JNLAB_MAX : Z := 4.
Definition JNLASE_SRC6 : Z := 1.
Definition JNLASE_DST6 : Z := 2.
Definition JNLASE_SRC4 : Z := 3.
Definition JNLASE_DST4 : Z := 4.
Definition JNLASE_PROTO : Z := 5.
Definition JNLASE_STATE : Z := 6.
Definition JNLASE_TIMER : Z := 7.
Definition JNLASE_EXPIRATION : Z := 8.
Definition JNLASE_MAX : Z := 8.

Fixpoint assoc (l : list (Z * pol)) : policy := fun i => match l with [] => PUnspec | (j, p) :: l => if i =? j then p else assoc l i end.
(** src/common/config.c:7-12 joolnl_struct_list_policy, joolnl_plateau_list_policy *)
Definition struct_list_policy : policy := assoc [(JNLAL_ENTRY, PNested)].
Definition plateau_list_policy : policy := assoc [(JNLAL_ENTRY, PU16)].
(** src/common/config.c:30-38 joolnl_prefix6_policy, joolnl_prefix4_policy *)
Definition prefix6_policy : policy := assoc [(JNLAP_ADDR, PAddr 16); (JNLAP_LEN, PU8)].
Definition prefix4_policy : policy := assoc [(JNLAP_ADDR, PAddr 4); (JNLAP_LEN, PU8)].
(** src/common/config.c:40-48 joolnl_taddr6_policy, joolnl_taddr4_policy *)
Definition taddr6_policy : policy := assoc [(JNLAT_ADDR, PAddr 16); (JNLAT_PORT, PU16)].
Definition taddr4_policy : policy := assoc [(JNLAT_ADDR, PAddr 4); (JNLAT_PORT, PU16)].
(** src/common/config.c:50-53 eam_policy *)
Definition eam_policy : policy := assoc [(JNLAE_PREFIX6, PNested); (JNLAE_PREFIX4, PNested)].
(** src/common/config.c:55-63 joolnl_pool4_entry_policy *)
Definition pool4_policy : policy := assoc [(JNLAP4_MARK, PU32); (JNLAP4_ITERATIONS, PU32); (JNLAP4_FLAGS, PU8); (JNLAP4_PROTO, PU8);
  (JNLAP4_PREFIX, PNested); (JNLAP4_PORT_MIN, PU16); (JNLAP4_PORT_MAX, PU16)].
(** src/common/config.c:65-70 joolnl_bib_entry_policy *)
Definition bib_policy : policy := assoc [(JNLAB_SRC6, PNested); (JNLAB_SRC4, PNested); (JNLAB_PROTO, PU8); (JNLAB_STATIC, PU8)].
(** src/common/config.c:72-81 joolnl_session_entry_policy *)
Definition session_policy : policy := assoc [(JNLASE_SRC6, PNested); (JNLASE_DST6, PNested); (JNLASE_SRC4, PNested); (JNLASE_DST4, PNested);
  (JNLASE_PROTO, PU8); (JNLASE_STATE, PU8); (JNLASE_TIMER, PU8); (JNLASE_EXPIRATION, PU32)].

(** ** The module reads *)

(** src/mod/common/nl/attribute.c:15-23 validate_null *)
Definition validate_null (a : option attr) : rd attr := match a with Some a => Got a | None => Bad EINVAL end.
(** src/mod/common/nl/attribute.c:25-34 validate_len *)
Definition validate_len (a : attr) (n : nat) : rd unit := if (length (a_data a) <? n)%nat then Bad EINVAL else Got tt.
(** src/mod/common/nl/attribute.c:36-70 jnla_get_u8, jnla_get_u16, jnla_get_u32 *)
Definition jnla_get_u8 (a : option attr) : rd Z := rbind (validate_null a) (nla_get 1).
Definition jnla_get_u16 (a : option attr) : rd Z := rbind (validate_null a) (nla_get 2).
Definition jnla_get_u32 (a : option attr) : rd Z := rbind (validate_null a) (nla_get 4).
(** src/mod/common/nl/attribute.c:98-126 jnla_get_addr6, jnla_get_addr4 *)
Definition jnla_get_addr (n : nat) (a : option attr) : rd Z :=
  rbind (validate_null a) (fun a => rbind (validate_len a n) (fun _ =>
  if (length (a_data a) <? n)%nat then Stray else Got (be_of (firstn n (a_data a))))).
Definition jnla_get_addr6 := jnla_get_addr 16.
Definition jnla_get_addr4 := jnla_get_addr 4.
(** src/mod/common/nl/attribute.c:147-175 jnla_get_prefix6_optional. [None]: not set. (A prefix that is not
    set leaves the old contents of [out] in place.) *)
Definition jnla_get_prefix6_optional (a : option attr) : rd (option prefix6) :=
  rbind (validate_null a) (fun a =>
  rbind (nla_parse_nested_k JNLAP_MAX a prefix6_policy) (fun t =>
  match t JNLAP_LEN with
  | None => Bad EINVAL
  | Some l =>
    match t JNLAP_ADDR with
    | None => Got None
    | Some _ => rbind (nla_get 1 l) (fun len => rbind (jnla_get_addr6 (t JNLAP_ADDR)) (fun addr => Got (Some (P6 addr len))))
    end
  end)).
(** src/mod/common/nl/attribute.c:128-145 jnla_get_prefix6 *)
Definition jnla_get_prefix6 (a : option attr) : rd prefix6 :=
  rbind (jnla_get_prefix6_optional a) (fun r => match r with Some p => Got p | None => Bad EINVAL end).
(** src/mod/common/nl/attribute.c:196-224 jnla_get_prefix4_optional *)
Definition jnla_get_prefix4_optional (a : option attr) : rd (option prefix4) :=
  rbind (validate_null a) (fun a =>
  rbind (nla_parse_nested_k JNLAP_MAX a prefix4_policy) (fun t =>
  match t JNLAP_LEN with
  | None => Bad EINVAL
  | Some l =>
    match t JNLAP_ADDR with
    | None => Got None
    | Some _ => rbind (nla_get 1 l) (fun len => rbind (jnla_get_addr4 (t JNLAP_ADDR)) (fun addr => Got (Some (P4 addr len))))
    end
  end)).
(** src/mod/common/nl/attribute.c:177-194 jnla_get_prefix4 *)
Definition jnla_get_prefix4 (a : option attr) : rd prefix4 :=
  rbind (jnla_get_prefix4_optional a) (fun r => match r with Some p => Got p | None => Bad EINVAL end).
(** src/mod/common/nl/attribute.c:226-236 jnla_get_port *)
Definition jnla_get_port (a : option attr) : rd Z := rbind (validate_null a) (nla_get 2).
(** src/mod/common/nl/attribute.c:238-278 jnla_get_taddr6, jnla_get_taddr4 *)
Definition jnla_get_taddr6 (a : option attr) : rd (Z * Z) :=
  rbind (validate_null a) (fun a =>
  rbind (nla_parse_nested_k JNLAT_MAX a taddr6_policy) (fun t =>
  rbind (jnla_get_addr6 (t JNLAT_ADDR)) (fun l3 => rbind (jnla_get_port (t JNLAT_PORT)) (fun l4 => Got (l3, l4))))).
Definition jnla_get_taddr4 (a : option attr) : rd (Z * Z) :=
  rbind (validate_null a) (fun a =>
  rbind (nla_parse_nested_k JNLAT_MAX a taddr4_policy) (fun t =>
  rbind (jnla_get_addr4 (t JNLAT_ADDR)) (fun l3 => rbind (jnla_get_port (t JNLAT_PORT)) (fun l4 => Got (l3, l4))))).
(** src/mod/common/nl/attribute.c:280-298 jnla_get_eam *)
Definition jnla_get_eam (a : option attr) : rd entry :=
  rbind (validate_null a) (fun a =>
  rbind (nla_parse_nested_k JNLAE_MAX a eam_policy) (fun t =>
  rbind (jnla_get_prefix6 (t JNLAE_PREFIX6)) (fun p6 => rbind (jnla_get_prefix4 (t JNLAE_PREFIX4)) (fun p4 => Got (EEam p6 p4))))).
(** The field stays 0 (memset) if there is no attribute. *)
Definition get_or_zero (n : nat) (a : option attr) : rd Z := match a with Some a => nla_get n a | None => Got 0 end.
(** src/mod/common/nl/attribute.c:300-337 jnla_get_pool4 *)
Definition jnla_get_pool4 (a : option attr) : rd entry :=
  rbind (validate_null a) (fun a =>
  rbind (nla_parse_nested_k JNLAP4_MAX a pool4_policy) (fun t =>
  rbind (get_or_zero 4 (t JNLAP4_MARK)) (fun mark =>
  rbind (get_or_zero 4 (t JNLAP4_ITERATIONS)) (fun iterations =>
  rbind (get_or_zero 1 (t JNLAP4_FLAGS)) (fun flags =>
  rbind (jnla_get_u8 (t JNLAP4_PROTO)) (fun proto =>
  rbind (jnla_get_prefix4 (t JNLAP4_PREFIX)) (fun prefix =>
  rbind (jnla_get_u16 (t JNLAP4_PORT_MIN)) (fun min =>
  rbind (jnla_get_u16 (t JNLAP4_PORT_MAX)) (fun max => Got (EPool4 mark iterations flags proto prefix (min, max))))))))))).
(** src/mod/common/nl/attribute.c:339-370 jnla_get_bib. (The cast to bool) *)
Definition jnla_get_bib (a : option attr) : rd entry :=
  rbind (validate_null a) (fun a =>
  rbind (nla_parse_nested_k JNLAB_MAX a bib_policy) (fun t =>
  rbind (jnla_get_taddr6 (t JNLAB_SRC6)) (fun a6 =>
  rbind (jnla_get_taddr4 (t JNLAB_SRC4)) (fun a4 =>
  rbind (jnla_get_u8 (t JNLAB_PROTO)) (fun proto =>
  rbind (get_or_zero 1 (t JNLAB_STATIC)) (fun static => Got (EBib a6 a4 proto (negb (static =? 0))))))))).
(** nla_validate() of Linux: nla_parse() without the table *)
Definition nla_validate_k (maxtype : Z) (p : policy) (data : list Z) : rd unit := rbind (nla_parse_k maxtype p data) (fun _ => Got tt).
(** The loops of the two functions named get_plateaus: PLATEAUS_MAX is 64. *)
Fixpoint get_each_plateau (count : Z) (l : list attr) : rd (list Z) :=
  match l with
  | [] => Got []
  | a :: l =>
    if 64 <=? count then Bad EINVAL
    else rbind (nla_get 2 a) (fun v => rbind (get_each_plateau (count + 1) l) (fun r => Got (v :: r)))
  end.
(** src/mod/common/nl/attribute.c:509-535 jnla_get_plateaus, down to the values of the list; sorting them is in
    [Glob_Model.jnla_get_plateaus] *)
Definition jnla_get_plateau_values (a : option attr) : rd (list Z) :=
  rbind (validate_null a) (fun a =>
  rbind (nla_validate_k JNLAL_MAX plateau_list_policy (a_data a)) (fun _ => get_each_plateau 0 (fst (attributes (a_data a))))).

(** ** The module writes *)

(** src/mod/common/nl/attribute.c:538-548 jnla_put_addr6, jnla_put_addr4; src/usr/nl/attribute.c:324-332 nla_put_addr6, nla_put_addr4 *)
Definition put_addr6 (cap ty a : Z) : list Z -> put := nla_put cap ty (octets 16 a).
Definition put_addr4 (cap ty a : Z) : list Z -> put := nla_put cap ty (octets 4 a).
Definition nest_k (cap ty : Z) : (list Z -> put) -> list Z -> put := nest (nla_nest_start_k cap ty) nla_nest_end_k.
(** src/mod/common/nl/attribute.c:550-610 jnla_put_prefix6, jnla_put_prefix4 *)
Definition jnla_put_prefix6 (cap ty : Z) (p : option prefix6) : list Z -> put :=
  nest_k cap ty match p with
  | Some p => andthen (put_addr6 cap JNLAP_ADDR (p6_addr p)) (nla_put_u8 cap JNLAP_LEN (p6_len p))
  | None => nla_put_u8 cap JNLAP_LEN 0
  end.
Definition jnla_put_prefix4 (cap ty : Z) (p : option prefix4) : list Z -> put :=
  nest_k cap ty match p with
  | Some p => andthen (put_addr4 cap JNLAP_ADDR (p4_addr p)) (nla_put_u8 cap JNLAP_LEN (p4_len p))
  | None => nla_put_u8 cap JNLAP_LEN 0
  end.
(** src/mod/common/nl/attribute.c:612-660 jnla_put_taddr6, jnla_put_taddr4 *)
Definition jnla_put_taddr6 (cap ty : Z) (a : Z * Z) : list Z -> put :=
  nest_k cap ty (andthen (put_addr6 cap JNLAT_ADDR (fst a)) (nla_put_u16 cap JNLAT_PORT (snd a))).
Definition jnla_put_taddr4 (cap ty : Z) (a : Z * Z) : list Z -> put :=
  nest_k cap ty (andthen (put_addr4 cap JNLAT_ADDR (fst a)) (nla_put_u16 cap JNLAT_PORT (snd a))).
(** src/mod/common/nl/attribute.c:662-685 jnla_put_eam *)
Definition jnla_put_eam (cap ty : Z) (p6 : prefix6) (p4 : prefix4) : list Z -> put :=
  nest_k cap ty (andthen (jnla_put_prefix6 cap JNLAE_PREFIX6 (Some p6)) (jnla_put_prefix4 cap JNLAE_PREFIX4 (Some p4))).
(** src/mod/common/nl/attribute.c:687-711 jnla_put_pool4 *)
Definition jnla_put_pool4 (cap ty : Z) (mark iterations flags proto : Z) (p : prefix4) (ports : Z * Z) : list Z -> put :=
  nest_k cap ty
    (andthen (nla_put_u32 cap JNLAP4_MARK mark)
    (andthen (nla_put_u32 cap JNLAP4_ITERATIONS iterations)
    (andthen (nla_put_u8 cap JNLAP4_FLAGS flags)
    (andthen (nla_put_u8 cap JNLAP4_PROTO proto)
    (andthen (jnla_put_prefix4 cap JNLAP4_PREFIX (Some p))
    (andthen (nla_put_u16 cap JNLAP4_PORT_MIN (fst ports))
             (nla_put_u16 cap JNLAP4_PORT_MAX (snd ports)))))))).
(** src/mod/common/nl/attribute.c:713-733 jnla_put_bib *)
Definition jnla_put_bib (cap ty : Z) (a6 a4 : Z * Z) (proto : Z) (static : bool) : list Z -> put :=
  nest_k cap ty
    (andthen (jnla_put_taddr6 cap JNLAB_SRC6 a6)
    (andthen (jnla_put_taddr4 cap JNLAB_SRC4 a4)
    (andthen (nla_put_u8 cap JNLAB_PROTO proto)
             (nla_put_u8 cap JNLAB_STATIC (if static then 1 else 0))))).
(** src/mod/common/nl/attribute.c:735-768 jnla_put_session. [proto], [state], [timer]: the numbers; [dying]: the
    milliseconds left *)
Definition jnla_put_session (cap ty : Z) (src6 dst6 src4 dst4 : Z * Z) (proto state timer dying : Z) : list Z -> put :=
  nest_k cap ty
    (andthen (jnla_put_taddr6 cap JNLASE_SRC6 src6)
    (andthen (jnla_put_taddr6 cap JNLASE_DST6 dst6)
    (andthen (jnla_put_taddr4 cap JNLASE_SRC4 src4)
    (andthen (jnla_put_taddr4 cap JNLASE_DST4 dst4)
    (andthen (nla_put_u8 cap JNLASE_PROTO proto)
    (andthen (nla_put_u8 cap JNLASE_STATE state)
    (andthen (nla_put_u8 cap JNLASE_TIMER timer)
             (nla_put_u32 cap JNLASE_EXPIRATION dying)))))))).
(** src/mod/common/nl/attribute.c:829-850 jnla_put_plateaus *)
Definition jnla_put_plateaus (cap ty : Z) (l : list Z) : list Z -> put :=
  nest_k cap ty (fold_right (fun v => andthen (nla_put_u16 cap JNLAL_ENTRY v)) done l).

(** ** The client writes *)

Definition nest_u (cap ty : Z) : (list Z -> put) -> list Z -> put := nest (nla_nest_start_u cap ty) nla_nest_end_u.
(** src/usr/nl/attribute.c:334-384 nla_put_prefix6, nla_put_prefix4 *)
Definition nla_put_prefix6 (cap ty : Z) (p : option prefix6) : list Z -> put :=
  nest_u cap ty match p with
  | Some p => andthen (put_addr6 cap JNLAP_ADDR (p6_addr p)) (nla_put_u8 cap JNLAP_LEN (p6_len p))
  | None => nla_put_u8 cap JNLAP_LEN 0
  end.
Definition nla_put_prefix4 (cap ty : Z) (p : option prefix4) : list Z -> put :=
  nest_u cap ty match p with
  | Some p => andthen (put_addr4 cap JNLAP_ADDR (p4_addr p)) (nla_put_u8 cap JNLAP_LEN (p4_len p))
  | None => nla_put_u8 cap JNLAP_LEN 0
  end.
(** src/usr/nl/attribute.c:386-426 nla_put_taddr6, nla_put_taddr4 *)
Definition nla_put_taddr6 (cap ty : Z) (a : Z * Z) : list Z -> put :=
  nest_u cap ty (andthen (put_addr6 cap JNLAT_ADDR (fst a)) (nla_put_u16 cap JNLAT_PORT (snd a))).
Definition nla_put_taddr4 (cap ty : Z) (a : Z * Z) : list Z -> put :=
  nest_u cap ty (andthen (put_addr4 cap JNLAT_ADDR (fst a)) (nla_put_u16 cap JNLAT_PORT (snd a))).
(** src/usr/nl/attribute.c:428-446 nla_put_plateaus *)
Definition nla_put_plateaus (cap ty : Z) (l : list Z) : list Z -> put :=
  nest_u cap ty (fold_right (fun v => andthen (nla_put_u16 cap JNLAL_ENTRY v)) done l).
(** src/usr/nl/attribute.c:448-467 nla_put_eam *)
Definition nla_put_eam (cap ty : Z) (p6 : prefix6) (p4 : prefix4) : list Z -> put :=
  nest_u cap ty (andthen (nla_put_prefix6 cap JNLAE_PREFIX6 (Some p6)) (nla_put_prefix4 cap JNLAE_PREFIX4 (Some p4))).
(** src/usr/nl/attribute.c:469-492 nla_put_pool4 *)
Definition nla_put_pool4 (cap ty : Z) (mark iterations flags proto : Z) (p : prefix4) (ports : Z * Z) : list Z -> put :=
  nest_u cap ty
    (andthen (nla_put_u32 cap JNLAP4_MARK mark)
    (andthen (nla_put_u32 cap JNLAP4_ITERATIONS iterations)
    (andthen (nla_put_u8 cap JNLAP4_FLAGS flags)
    (andthen (nla_put_u8 cap JNLAP4_PROTO proto)
    (andthen (nla_put_prefix4 cap JNLAP4_PREFIX (Some p))
    (andthen (nla_put_u16 cap JNLAP4_PORT_MIN (fst ports))
             (nla_put_u16 cap JNLAP4_PORT_MAX (snd ports)))))))).
(** src/usr/nl/attribute.c:494-519 nla_put_bib_attrs *)
Definition nla_put_bib_attrs (cap ty : Z) (a6 a4 : option (Z * Z)) (proto : Z) (static : bool) : list Z -> put :=
  nest_u cap ty
    (andthen (match a6 with Some a => nla_put_taddr6 cap JNLAB_SRC6 a | None => done end)
    (andthen (match a4 with Some a => nla_put_taddr4 cap JNLAB_SRC4 a | None => done end)
    (andthen (nla_put_u8 cap JNLAB_PROTO proto)
             (nla_put_u8 cap JNLAB_STATIC (if static then 1 else 0))))).
(** src/usr/nl/attribute.c:521-525 nla_put_bib *)
Definition nla_put_bib (cap ty : Z) (a6 a4 : Z * Z) (proto : Z) (static : bool) : list Z -> put :=
  nla_put_bib_attrs cap ty (Some a6) (Some a4) proto static.
(** src/usr/nl/attribute.c:527-553 nla_put_session *)
Definition nla_put_session (cap ty : Z) (src6 dst6 src4 dst4 : Z * Z) (proto state dying : Z) : list Z -> put :=
  nest_u cap ty
    (andthen (nla_put_taddr6 cap JNLASE_SRC6 src6)
    (andthen (nla_put_taddr6 cap JNLASE_DST6 dst6)
    (andthen (nla_put_taddr4 cap JNLASE_SRC4 src4)
    (andthen (nla_put_taddr4 cap JNLASE_DST4 dst4)
    (andthen (nla_put_u8 cap JNLASE_PROTO proto)
    (andthen (nla_put_u8 cap JNLASE_STATE state)
             (nla_put_u32 cap JNLASE_EXPIRATION dying))))))).

(** ** The client reads *)

(** src/usr/nl/attribute.c:8-25 validate_mandatory_attrs: [policy[i].type] is 0 for NLA_UNSPEC, so
    the addresses are not mandatory; and the last attribute is not looked at. *)
Definition mandatory (p : pol) : bool := match p with PUnspec | PAddr _ => false | _ => true end.
Definition validate_mandatory_attrs (t : table) (maxtype : Z) (p : policy) : bool :=
  forallb (fun i => let i := Z.of_nat i in negb (mandatory (p i)) || match t i with Some _ => true | None => false end) (seq 0 (Z.to_nat maxtype)).
(** src/usr/nl/attribute.c:50-64 jnla_parse_nested *)
Definition jnla_parse_nested_u (maxtype : Z) (a : attr) (p : policy) : rd table :=
  rbind (nla_parse_u maxtype p (a_data a)) (fun t => if validate_mandatory_attrs t maxtype p then Got t else Bad EINVAL).
(** src/usr/nl/attribute.c:67-95 jnla_validate_list *)
Definition jnla_validate_list (data : list Z) (p : policy) : rd unit :=
  rbind (nla_parse_u JNLAL_MAX p data) (fun _ =>
  if forallb (fun a => nla_type a =? JNLAL_ENTRY) (fst (attributes data)) then Got tt else Bad EINVAL).
(** src/usr/nl/attribute.c:102-110 nla_get_addr6, nla_get_addr4 *)
Definition nla_get_addr (n : nat) (a : option attr) : rd Z :=
  match a with
  | None => Stray
  | Some a => if (length (a_data a) <? n)%nat then Stray else Got (be_of (firstn n (a_data a)))
  end.
(** src/usr/nl/attribute.c:118-186 nla_get_prefix6, nla_get_prefix4; ENOENT: not set *)
Definition nla_get_prefix6 (a : option attr) : rd prefix6 :=
  match a with None => Stray | Some a =>
  rbind (nla_parse_u JNLAP_MAX prefix6_policy (a_data a)) (fun t =>
  match t JNLAP_ADDR, t JNLAP_LEN with
  | None, _ => Bad ENOENT
  | _, None => Bad EINVAL
  | Some ad, Some l => rbind (nla_get_addr 16 (Some ad)) (fun addr => rbind (nla_get 1 l) (fun len => Got (P6 addr len)))
  end) end.
Definition nla_get_prefix4 (a : option attr) : rd prefix4 :=
  match a with None => Stray | Some a =>
  rbind (nla_parse_u JNLAP_MAX prefix4_policy (a_data a)) (fun t =>
  match t JNLAP_ADDR, t JNLAP_LEN with
  | None, _ => Bad ENOENT
  | _, None => Bad EINVAL
  | Some ad, Some l => rbind (nla_get_addr 4 (Some ad)) (fun addr => rbind (nla_get 1 l) (fun len => Got (P4 addr len)))
  end) end.
(** src/usr/nl/attribute.c:188-214 nla_get_taddr6, nla_get_taddr4 *)
Definition nla_get_taddr6 (a : option attr) : rd (Z * Z) :=
  match a with None => Stray | Some a =>
  rbind (jnla_parse_nested_u JNLAT_MAX a taddr6_policy) (fun t =>
  rbind (nla_get_addr 16 (t JNLAT_ADDR)) (fun l3 => rbind (nla_get_ptr 2 (t JNLAT_PORT)) (fun l4 => Got (l3, l4)))) end.
Definition nla_get_taddr4 (a : option attr) : rd (Z * Z) :=
  match a with None => Stray | Some a =>
  rbind (jnla_parse_nested_u JNLAT_MAX a taddr4_policy) (fun t =>
  rbind (nla_get_addr 4 (t JNLAT_ADDR)) (fun l3 => rbind (nla_get_ptr 2 (t JNLAT_PORT)) (fun l4 => Got (l3, l4)))) end.
(** src/usr/nl/attribute.c:216-230 nla_get_eam *)
Definition nla_get_eam (a : attr) : rd entry :=
  rbind (jnla_parse_nested_u JNLAE_MAX a eam_policy) (fun t =>
  rbind (nla_get_prefix6 (t JNLAE_PREFIX6)) (fun p6 => rbind (nla_get_prefix4 (t JNLAE_PREFIX4)) (fun p4 => Got (EEam p6 p4)))).
(** src/usr/nl/attribute.c:232-248 nla_get_pool4 *)
Definition nla_get_pool4 (a : attr) : rd entry :=
  rbind (jnla_parse_nested_u JNLAP4_MAX a pool4_policy) (fun t =>
  rbind (nla_get_ptr 4 (t JNLAP4_MARK)) (fun mark =>
  rbind (nla_get_ptr 4 (t JNLAP4_ITERATIONS)) (fun iterations =>
  rbind (nla_get_ptr 1 (t JNLAP4_FLAGS)) (fun flags =>
  rbind (nla_get_ptr 1 (t JNLAP4_PROTO)) (fun proto =>
  rbind (nla_get_ptr 2 (t JNLAP4_PORT_MIN)) (fun min =>
  rbind (nla_get_ptr 2 (t JNLAP4_PORT_MAX)) (fun max =>
  rbind (nla_get_prefix4 (t JNLAP4_PREFIX)) (fun prefix => Got (EPool4 mark iterations flags proto prefix (min, max)))))))))).
(** src/usr/nl/attribute.c:250-268 nla_get_bib *)
Definition nla_get_bib (a : attr) : rd entry :=
  rbind (jnla_parse_nested_u JNLAB_MAX a bib_policy) (fun t =>
  rbind (nla_get_taddr6 (t JNLAB_SRC6)) (fun a6 =>
  rbind (nla_get_taddr4 (t JNLAB_SRC4)) (fun a4 =>
  rbind (nla_get_ptr 1 (t JNLAB_PROTO)) (fun proto =>
  rbind (nla_get_ptr 1 (t JNLAB_STATIC)) (fun static => Got (EBib a6 a4 proto (negb (static =? 0)))))))).
(** src/usr/nl/session.h struct session_entry_usr *)
Record usession := US { us_src6 : Z * Z; us_dst6 : Z * Z; us_src4 : Z * Z; us_dst4 : Z * Z; us_proto : Z; us_state : Z; us_dying : Z }.
(** src/usr/nl/attribute.c:270-295 nla_get_session *)
Definition nla_get_session (a : attr) : rd usession :=
  rbind (jnla_parse_nested_u JNLASE_MAX a session_policy) (fun t =>
  rbind (nla_get_taddr6 (t JNLASE_SRC6)) (fun src6 =>
  rbind (nla_get_taddr6 (t JNLASE_DST6)) (fun dst6 =>
  rbind (nla_get_taddr4 (t JNLASE_SRC4)) (fun src4 =>
  rbind (nla_get_taddr4 (t JNLASE_DST4)) (fun dst4 =>
  rbind (nla_get_ptr 1 (t JNLASE_PROTO)) (fun proto =>
  rbind (nla_get_ptr 1 (t JNLASE_STATE)) (fun state =>
  rbind (nla_get_ptr 4 (t JNLASE_EXPIRATION)) (fun dying => Got (US src6 dst6 src4 dst4 proto state dying))))))))).
(** src/usr/nl/attribute.c:297-322 nla_get_plateaus *)
Definition nla_get_plateaus (a : attr) : rd (list Z) :=
  rbind (jnla_validate_list (a_data a) plateau_list_policy) (fun _ => get_each_plateau 0 (fst (attributes (a_data a)))).

(** ** Which of them are used for the entries of each database *)

(** The handlers of the entries in src/usr/nl/file.c, and the requests of src/usr/nl/denylist4.c, pool4.c, bib.c *)
Definition put_entry_u (cap ty : Z) (e : entry) : list Z -> put :=
  match e with
  | EEam p6 p4 => nla_put_eam cap ty p6 p4
  | EDeny p => nla_put_prefix4 cap ty (Some p)
  | EPool4 mark iterations flags proto p ports => nla_put_pool4 cap ty mark iterations flags proto p ports
  | EBib a6 a4 proto static => nla_put_bib cap ty a6 a4 proto static
  end.
(** src/mod/common/nl/eam.c:11-14, denylist4.c:11-14, pool4.c:11-14, bib.c:11-14: the listings *)
Definition put_entry_k (cap ty : Z) (e : entry) : list Z -> put :=
  match e with
  | EEam p6 p4 => jnla_put_eam cap ty p6 p4
  | EDeny p => jnla_put_prefix4 cap ty (Some p)
  | EPool4 mark iterations flags proto p ports => jnla_put_pool4 cap ty mark iterations flags proto p ports
  | EBib a6 a4 proto static => jnla_put_bib cap ty a6 a4 proto static
  end.
Inductive table_kind := TEamt | TDenylist4 | TPool4 | TBib.
Definition get_entry_k (k : table_kind) (a : option attr) : rd entry :=
  match k with
  | TEamt => jnla_get_eam a
  | TDenylist4 => rbind (jnla_get_prefix4 a) (fun p => Got (EDeny p))
  | TPool4 => jnla_get_pool4 a
  | TBib => jnla_get_bib a
  end.
Definition get_entry_u (k : table_kind) (a : attr) : rd entry :=
  match k with
  | TEamt => nla_get_eam a
  | TDenylist4 => rbind (nla_get_prefix4 (Some a)) (fun p => Got (EDeny p))
  | TPool4 => nla_get_pool4 a
  | TBib => nla_get_bib a
  end.

End Nla.
Arguments Got {A} a.
Arguments Bad {A} e.
Arguments Stray {A}.
