(** Independent specification of SIIT's address translation, from RFC 7915
    section 5.1/4.1, RFC 7757 and docs/en/usr-flags-denylist4.md. *)
Require Import Verif.Base Verif.Addr_Model Verif.Addr_Spec Verif.Eam_Model Verif.Eam_Spec.
Require Import Verif.Rtrie_Model Verif.Deny_Model Verif.Deny_Spec Verif.Siit_Model.

(** What the operator sees: the mappings, the denylist, this node's own
    addresses, pool6 and the RFC 6791 pools. *)
Record site := Site { t_tbl : list eam; t_deny : list prefix4; t_ifas : list ifaddr; t_pool6 : option prefix6;
  t_6791v4 : option prefix4; t_6791v6 : option prefix6 }.

Inductive how := ByPool6 (p : prefix6) | ByEam (e : eam).

(** Number of suffix bits of an entry, in each family. *)
Definition suffix4 (e : eam) : Z := 32 - p4_len (e_p4 e).
Definition suffix6 (e : eam) : Z := 128 - p6_len (e_p6 e).

(** The IPv6 address [a6] stands for the IPv4 address [a4]: by a mapping that
    covers [a6] (the bits after the IPv6 prefix become the bits after the IPv4
    prefix), else by RFC 6052. *)
Inductive stands_for (c : site) (a6 a4 : Z) : how -> Prop :=
| SfEam : forall e, In e (t_tbl c) -> in6 (e_p6 e) a6 -> is_u32 a4 -> in4 (e_p4 e) a4 ->
    a4 mod 2 ^ suffix4 e = (a6 / 2 ^ (suffix6 e - suffix4 e)) mod 2 ^ suffix4 e ->
    stands_for c a6 a4 (ByEam e)
| SfPool6 : forall p, (forall e, In e (t_tbl c) -> ~ in6 (e_p6 e) a6) -> t_pool6 c = Some p ->
    in6 p a6 -> is_u32 a4 ->
    (forall i, 0 <= i < 4 -> octet 4 a4 (Z.to_nat i) = octet 16 a6 (Z.to_nat (rfc6052_pos (p6_len p) i))) ->
    stands_for c a6 a4 (ByPool6 p).

(** [a6] is the address that represents [a4] in the IPv6 network: by a mapping
    that covers [a4] (the bits left over are zero), else by RFC 6052. *)
Inductive represents (c : site) (a6 a4 : Z) : how -> Prop :=
| RpEam : forall e, In e (t_tbl c) -> in4 (e_p4 e) a4 -> is_u128 a6 -> in6 (e_p6 e) a6 ->
    a6 mod 2 ^ suffix6 e = (a4 mod 2 ^ suffix4 e) * 2 ^ (suffix6 e - suffix4 e) ->
    represents c a6 a4 (ByEam e)
| RpPool6 : forall p, (forall e, In e (t_tbl c) -> ~ in4 (e_p4 e) a4) -> t_pool6 c = Some p ->
    rfc6052_layout (p6_addr p) (p6_len p) a4 a6 ->
    represents c a6 a4 (ByPool6 p).

(** The same site without mappings: how an address is represented when the
    mappings must not be used. *)
Definition unmapped (c : site) : site := Site [] (t_deny c) (t_ifas c) (t_pool6 c) (t_6791v4 c) (t_6791v6 c).

(** An address of this node: one it was given, or the broadcast address of the
    subnet of one (except in /31 and /32 subnets). *)
Definition own (c : site) (a : Z) : Prop := exists i, In i (t_ifas c) /\
  (a = ifa_local i \/
   (ifa_prefixlen i < 31 /\ in_prefix 32 (ifa_local i) (ifa_prefixlen i) a /\
    a mod 2 ^ (32 - ifa_prefixlen i) = 2 ^ (32 - ifa_prefixlen i) - 1)).

Definition denylisted (c : site) (a : Z) : Prop := exists p, In p (t_deny c) /\ in4 p a.

(** The documented rules: never this node's addresses nor subnet-scoped ones;
    not the denylisted ones unless a mapping is involved. *)
Definition permitted (c : site) (a : Z) (h : how) : Prop :=
  ~ subnet_scoped a /\ ~ own c a /\ (forall p, h = ByPool6 p -> ~ denylisted c a).

(** ::1 *)
Definition loopback6 : Z := 1.

(** Well-formed configuration. *)
Definition wf_ifaddr (i : ifaddr) : Prop :=
  is_u32 (ifa_local i) /\ 0 <= ifa_prefixlen i <= 32 /\ ifa_mask i = 2^32 - 2 ^ (32 - ifa_prefixlen i).
Definition wf_site (c : site) : Prop :=
  (forall p, In p (t_deny c) -> wt_prefix4 p /\ prefix4_validate p = OK) /\
  (forall i, In i (t_ifas c) -> wf_ifaddr i) /\
  (forall p, t_pool6 c = Some p -> wt_prefix6 p /\ exists force, pool6_validate p force = OK) /\
  (forall p, t_6791v4 c = Some p -> wt_prefix4 p /\ prefix4_validate p = OK) /\
  (forall p, t_6791v6 c = Some p -> wt_prefix6 p /\ prefix6_validate p = OK).

(** No mapping takes addresses away from pool6. *)
Definition pool6_clear (c : site) : Prop :=
  forall p e, t_pool6 c = Some p -> In e (t_tbl c) -> ~ overlap6 p (e_p6 e).

(** ** What becomes of the two addresses of a header *)

(** The address that masks the source of an ICMP error: one of the pool, or
    zero, which routing replaces with an address of this node. *)
Definition mask4 (c : site) (a : Z) : Prop :=
  match t_6791v4 c with Some p => is_u32 a /\ in4 p a | None => a = 0 end.
Definition mask6 (c : site) (a : Z) : Prop :=
  match t_6791v6 c with Some p => is_u128 a /\ in6 p a | None => a = 0 end.

Definition xl64 (c : site) (a6 a4 : Z) : Prop :=
  a6 <> loopback6 /\ exists h, stands_for c a6 a4 h /\ permitted c a4 h.
Definition xl46 (c : site) (a4 a6 : Z) : Prop :=
  exists h, represents c a6 a4 h /\ permitted c a4 h.

(** Both addresses must translate under the rules; the source of an ICMP error
    is exempt from the rules, and masked if nothing translates it. *)
Definition leg64 (c : site) (l : leg) (s4 d4 : Z) : Prop :=
  xl64 c (l_dst l) d4 /\
  if l_err l then
    l_src l <> loopback6 /\
    ((exists h, stands_for c (l_src l) s4 h) \/
     ((forall a h, ~ stands_for c (l_src l) a h) /\ mask4 c s4))
  else xl64 c (l_src l) s4.
Definition leg46 (c : site) (l : leg) (s6 d6 : Z) : Prop :=
  xl46 c (l_dst l) d6 /\
  if l_err l then
    (exists h, represents c s6 (l_src l) h) \/
    ((forall a h, ~ represents c a (l_src l) h) /\ mask6 c s6)
  else xl46 c (l_src l) s6.

(** ** The model and the operator's view *)

(** The table of [st] is the result of a tame history, and [c] is what the
    operator sees of [st]. *)
Definition view (st : siit) (c : site) : Prop :=
  (exists ops rs, tame_history [] ops /\ eam_run eamt_alloc ops = Ok (rs, s_eamt st)) /\
  eamt_foreach (s_eamt st) None = Ok (OK, t_tbl c) /\
  t_deny c = s_deny st /\ t_ifas c = s_ifas st /\ t_pool6 c = s_pool6 st /\
  t_6791v4 c = s_6791v4 st /\ t_6791v6 c = s_6791v6 st.

(** C types *)
Definition wt_leg6 (l : leg) : Prop := is_u128 (l_src l) /\ is_u128 (l_dst l) /\ is_u8 (l_hop l).
Definition wt_leg4 (l : leg) : Prop := is_u32 (l_src l) /\ is_u32 (l_dst l) /\ is_u8 (l_hop l).
Definition wt_luck (u : luck) : Prop := is_u32 (u_n u) /\ (forall i, is_u8 (u_bytes u i)) /\ is_u8 (u_byte u).
