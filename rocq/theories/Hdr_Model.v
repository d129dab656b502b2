(** Translation of the headers: IPv6 and fragment headers to IPv4 headers and
    back, ICMP headers, path MTUs, and the size decisions.
    Sources: src/mod/common/rfc7915/6to4.c, src/mod/common/rfc7915/4to6.c,
    src/mod/common/packet.h.
    Outgoing headers are written field by field over whatever the outgoing
    buffer has ([out]), so a field nobody writes keeps its old octets. *)
Require Import Verif.Base Verif.Pool4_Model Verif.Rtrie_Model Verif.Nat64_Model Verif.Csum_Model Verif.Pkt_Model.

(** ** What the functions return *)

(** src/mod/common/icmp_wrapper.h:24-34 enum icmp_errcode, those used here *)
Inductive icmperr := E_TTL | E_FRAG_NEEDED | E_HDR_FIELD | E_SRC_ROUTE.
(** The counters (jstat) the functions here increment *)
Inductive jstat :=
| J_UNKNOWN | J_ENOMEM | J_UNKNOWN_ICMP6_TYPE | J_UNKNOWN_ICMP4_TYPE | J64_TTL | J46_TTL | J64_SEGMENTS_LEFT
| J46_SRC_ROUTE | J_PKT_TOO_BIG | J64_PARAM_PTR | J46_PARAM_PTR | J64_ICMP_CSUM | J46_ICMP_CSUM
| J_ICMPEXT_BIG | J46_BAD_MTU | J46_UDP_CSUM0.
(** drop(), drop_icmp() (with the error to send and its info) or go on; XUB is
    undefined behaviour. *)
Inductive xres (A : Type) := XOk (a : A) | XDrop (j : jstat) | XIcmp (j : jstat) (e : icmperr) (info : Z) | XUB.
Arguments XOk {A} a. Arguments XDrop {A} j. Arguments XIcmp {A} j e info. Arguments XUB {A}.
Definition xbind {A B} (m : xres A) (f : A -> xres B) : xres B :=
  match m with XOk a => f a | XDrop j => XDrop j | XIcmp j e i => XIcmp j e i | XUB => XUB end.
Notation "'let$' x := m 'in' f" := (xbind m (fun x => f)) (at level 200, x pattern, m at level 100, f at level 200).
Definition of_res {A} (m : res A) : xres A := match m with Ok a => XOk a | _ => XUB end.

(** The parts of a struct sk_buff the size decisions look at: skb->len,
    skb_headlen(), the lengths in its frag_list, gso_size. *)
Record skb := Skb { slen : Z; headlen : Z; flist : list Z; gso : Z }.

(** ** ICMP types, codes, pointers *)

(** src/mod/common/rfc7915/6to4.c:129-193 xlat64_icmp_type. The inner addresses, which it also
    computes, are arguments of the functions that use them. *)
Definition xlat64_icmp_type (type code : Z) : xres (Z * Z) :=
  if type =? 128 then XOk (8, 0)
  else if type =? 129 then XOk (0, 0)
  else if (type =? 1) && ((code =? 0) || (code =? 2) || (code =? 3)) then XOk (3, 1)
  else if (type =? 1) && (code =? 1) then XOk (3, 10)
  else if (type =? 1) && (code =? 4) then XOk (3, 3)
  else if type =? 2 then XOk (3, 4)
  else if type =? 3 then XOk (11, code)
  else if (type =? 4) && (code =? 0) then XOk (12, 0)
  else if (type =? 4) && (code =? 1) then XOk (3, 2)
  else XDrop J_UNKNOWN_ICMP6_TYPE.

(** src/mod/common/rfc7915/4to6.c:137-218 xlat46_icmp_type *)
Definition xlat46_icmp_type (type code : Z) : xres (Z * Z) :=
  if type =? 8 then XOk (128, 0)
  else if type =? 0 then XOk (129, 0)
  else if (type =? 3) && ((code =? 0) || (code =? 1) || (code =? 5) || (code =? 6) || (code =? 7) || (code =? 8)
                          || (code =? 11) || (code =? 12)) then XOk (1, 0)
  else if (type =? 3) && (code =? 2) then XOk (4, 1)
  else if (type =? 3) && (code =? 3) then XOk (1, 4)
  else if (type =? 3) && (code =? 4) then XOk (2, 0)
  else if (type =? 3) && ((code =? 9) || (code =? 10) || (code =? 13) || (code =? 15)) then XOk (1, 1)
  else if type =? 11 then XOk (3, code)
  else if (type =? 12) && ((code =? 0) || (code =? 2)) then XOk (4, 0)
  else XDrop J_UNKNOWN_ICMP4_TYPE.

(** src/mod/common/rfc7915/6to4.c:742-794 icmp6_to_icmp4_param_prob_ptr: the ICMPv4 pointer *)
Definition icmp6_to_icmp4_param_prob_ptr (ptr : Z) : xres Z :=
  if 39 <? ptr then XDrop J64_PARAM_PTR
  else if ptr =? 0 then XOk 0
  else if ptr =? 1 then XOk 1
  else if (ptr =? 2) || (ptr =? 3) then XDrop J64_PARAM_PTR
  else if (ptr =? 4) || (ptr =? 5) then XOk 2
  else if ptr =? 6 then XOk 9
  else if ptr =? 7 then XOk 8
  else if 24 <=? ptr then XOk 16
  else if 8 <=? ptr then XOk 12
  else XDrop J64_PARAM_PTR.

(** src/mod/common/rfc7915/4to6.c:1083-1117 icmp4_to_icmp6_param_prob: the table and its use, with
    the pointer's octet *)
Definition ptrs : list Z := [0; 1; 4; 4; 255; 255; 255; 255; 7; 6; 255; 255; 8; 8; 8; 8; 24; 24; 24; 24].
Definition icmp4_to_icmp6_param_prob (code ptr : Z) : xres Z :=
  if (code =? 0) || (code =? 2) then
    if (19 <? ptr) || (nth (Z.to_nat ptr) ptrs 0 =? 255) then XDrop J46_PARAM_PTR
    else XOk (nth (Z.to_nat ptr) ptrs 0)
  else XDrop J_UNKNOWN.

(** ** MTUs *)

(** Static const INFINITE, in both directions *)
Definition INFINITE : Z := 4294967295.
Definition or_infinite (mtu : option Z) : Z := match mtu with Some x => x | None => INFINITE end.

(** src/mod/common/rfc7915/6to4.c:708-736 compute_mtu4 and src/mod/common/rfc7915/6to4.c:703-706 minimum: [mtu] is the one in the
    message, [in_mtu] the incoming device's and [out_mtu] the route's, if any.
    The result is what is stored in 16 bits. *)
Definition compute_mtu4 (mtu : Z) (in_mtu out_mtu : option Z) : Z :=
  u16 (Z.min (u32 (mtu - 20)) (Z.min (or_infinite out_mtu) (u32 (or_infinite in_mtu - 20)))).

(** src/mod/common/rfc7915/4to6.c:985-990, the loop in icmp6_minimum_mtu *)
Fixpoint find_plateau (plateaus : list Z) (tot_len : Z) : Z :=
  match plateaus with
  | [] => 0
  | p :: ps => if p <? tot_len then p else find_plateau ps tot_len
  end.
(** src/mod/common/rfc7915/4to6.c:967-999 icmp6_minimum_mtu *)
Definition icmp6_minimum_mtu (plateaus : list Z) (packet_mtu nexthop6_mtu nexthop4_mtu tot_len : Z) : Z :=
  let packet_mtu := if packet_mtu =? 0 then find_plateau plateaus tot_len else packet_mtu in
  let result := Z.min (u32 (packet_mtu + 20)) (Z.min nexthop6_mtu (u32 (nexthop4_mtu + 20))) in
  if result <? 1280 then 1280 else result.
(** src/mod/common/rfc7915/4to6.c:1001-1037 compute_mtu6 *)
Definition compute_mtu6 (plateaus : list Z) (mtu : Z) (in_mtu out_mtu : option Z) (tot_len : Z) : Z :=
  icmp6_minimum_mtu plateaus mtu (or_infinite out_mtu) (or_infinite in_mtu) tot_len.

(** ** ICMP headers *)

(** src/mod/common/rfc7915/6to4.c:996-1052 ttp64_icmp, the header. [h] is the incoming ICMPv6
    header, [out] the outgoing buffer's octets there. [id] is the outgoing
    tuple's identifier (stateful translation). Checksums come later. *)
Definition icmp64_header (id : option Z) (in_mtu out_mtu : option Z) (h out : list Z) : xres (list Z) :=
  let$ tc := xlat64_icmp_type (byte h 0) (byte h 1) in
  let out := put 0 [fst tc] out in
  let out := put 1 [snd tc] out in
  let out := put 2 [byte h 2; byte h 3] out in
  let type := byte h 0 in
  if (type =? 128) || (type =? 129) then
    let out := put 4 (match id with Some i => octets 2 i | None => [byte h 4; byte h 5] end) out in
    XOk (put 6 [byte h 6; byte h 7] out)
  else if (type =? 1) || (type =? 3) then XOk (put 4 [0; 0; 0; 0] out)
  else if type =? 2 then
    let out := put 4 [0; 0] out in
    XOk (put 6 (octets 2 (compute_mtu4 (be32 h 4) in_mtu out_mtu)) out)
  else if type =? 4 then
    (* src/mod/common/rfc7915/6to4.c:799-817 icmp6_to_icmp4_param_prob *)
    if byte h 1 =? 0 then
      let$ p := icmp6_to_icmp4_param_prob_ptr (be32 h 4) in
      XOk (put 4 (octets 4 (u32 (p * 16777216))) out)
    else if byte h 1 =? 1 then XOk (put 4 [0; 0; 0; 0] out)
    else XDrop J_UNKNOWN
  else XDrop J_UNKNOWN.

(** src/mod/common/rfc7915/4to6.c:1288-1338 ttp46_icmp, the header; src/mod/common/rfc7915/4to6.c:1043-1078 icmp4_to_icmp6_dest_unreach.
    [tot_len] is the inner packet's total length field. *)
Definition icmp46_header (id : option Z) (plateaus : list Z) (in_mtu out_mtu : option Z) (tot_len : Z) (h out : list Z)
  : xres (list Z) :=
  let$ tc := xlat46_icmp_type (byte h 0) (byte h 1) in
  let out := put 0 [fst tc] out in
  let out := put 1 [snd tc] out in
  let out := put 2 [byte h 2; byte h 3] out in
  let type := byte h 0 in
  let code := byte h 1 in
  if (type =? 8) || (type =? 0) then
    let out := put 4 (match id with Some i => octets 2 i | None => [byte h 4; byte h 5] end) out in
    XOk (put 6 [byte h 6; byte h 7] out)
  else if type =? 3 then
    if code =? 2 then XOk (put 4 (octets 4 6) out)
    else if code =? 4 then XOk (put 4 (octets 4 (compute_mtu6 plateaus (be16 h 6) in_mtu out_mtu tot_len)) out)
    else XOk (put 4 [0; 0; 0; 0] out)
  else if type =? 11 then XOk (put 4 [0; 0; 0; 0] out)
  else if type =? 12 then
    let$ p := icmp4_to_icmp6_param_prob code (byte h 4) in XOk (put 4 (octets 4 p) out)
  else XDrop J_UNKNOWN.

(** ** Fragment fields *)

(** src/mod/common/packet.h:158-162 build_ipv6_frag_off_field *)
Definition build_ipv6_frag_off_field (off : Z) (mf : bool) : list Z :=
  octets 2 (8 * (u16 off / 8) + (if mf then 1 else 0)).
(** src/mod/common/packet.h:172-180 build_ipv4_frag_off_field *)
Definition build_ipv4_frag_off_field (df mf : bool) (off : Z) : list Z :=
  octets 2 (16384 * (if df then 1 else 0) + 8192 * (if mf then 1 else 0) + off / 8).
(** src/mod/common/rfc7915/4to6.c:815-818 build_id_field *)
Definition build_id_field (m : list Z) (h : nat) : list Z := octets 4 (be16 m (h + 4)).

(** ** IPv6 to IPv4 *)

(** The configuration's reset_tos and new_tos; whether the kernel is 6.18 or later
    (LINUX_VERSION_AT_LEAST(6, 18, 0, 9999, 0)) *)
Record tosconf := TosConf { reset_tos : bool; new_tos : Z; dscp_only : bool }.

(** src/mod/common/packet.h:57-62 get_traffic_class *)
Definition get_traffic_class (m : list Z) (h : nat) : Z := 16 * (byte m h mod 16) + byte m (h + 1) / 16.
(** src/mod/common/rfc7915/6to4.c:14-17 xlat_tos *)
Definition xlat_tos (c : tosconf) (m : list Z) (h : nat) : Z :=
  if reset_tos c then new_tos c else get_traffic_class m h.
(** src/mod/common/rfc7915/6to4.c:206-210 and 652-656: on its way through struct flowi4, whose
    flowi4_dscp keeps only the upper six bits (inet_dsfield_to_dscp, kernel) *)
Definition flow_tos (c : tosconf) (tos : Z) : Z := if dscp_only c then 4 * (tos / 4) else tos.
(** src/mod/common/rfc7915/6to4.c:22-29 xlat_proto *)
Definition xlat_proto (lin : nat) (m : list Z) (h : nat) : xres Z :=
  let$ t := of_res (hdr_iterator_last lin m h) in
  XOk (if fst t =? 58 then 1 else fst t).

(** src/mod/common/rfc7915/6to4.c:531-539 generate_ipv4_id; [ident] is the kernel's choice
    (__ip_select_ident), [fh] where pkt_frag_hdr() points, if anywhere *)
Definition generate_ipv4_id (ident : Z) (m : list Z) (fh : option nat) : list Z :=
  match fh with Some f => octets 2 (u16 (be32 m (f + 4))) | None => octets 2 ident end.

(** src/mod/common/rfc7915/6to4.c:541-573 generate_df_flag. [tot_len] is the outgoing header's field
    (used for inner packets), [out_hdrs] and [out_len] the outgoing packet's. *)
Definition generate_df_flag (inner : bool) (tot_len : Z) (sk : skb) (p : proto) (out_hdrs out_len : Z) : bool :=
  if inner then 1260 <? tot_len
  else match flist sk with
  | _ :: _ => false
  | [] =>
      if negb (gso sk =? 0) then
        match p with TCP => 1260 <? out_hdrs + gso sk | _ => false end
      else 1260 <? out_len
  end.

(** src/mod/common/rfc7915/6to4.c:575-593 xlat_frag_off; [df] is generate_df_flag() *)
Definition xlat_frag_off (m : list Z) (fh : option nat) (df : bool) : list Z :=
  match fh with
  | Some f => build_ipv4_frag_off_field false (mf6 m f) (frag_off6 m f)
  | None => build_ipv4_frag_off_field df false 0
  end.

(** ip_fast_csum() of a 20 octet header, stored *)
Definition ip_fast_csum (le : bool) (out : list Z) : list Z :=
  let out := put 10 [0; 0] out in
  put 10 (st16 le (csum_fold (csum_partial le (firstn 20 out) 0))) out.

(** pkt_frag_hdr() (src/mod/common/packet.h:306-311): an offset from skb->data, 0 meaning none *)
Definition frag_ptr (base fh : nat) : option nat := match fh with O => None | S _ => Some (base + fh)%nat end.

(** src/mod/common/rfc7915/6to4.c:626-669 ttp64_ipv4_external. [fh] is pkt->frag_offset, [out] the
    outgoing packet (its length is skb->len), [out_hdrs] its pkt_hdrs_len. *)
Definition ttp64_ipv4_external (le : bool) (c : tosconf) (ident saddr daddr : Z) (sk : skb) (lin : nat) (m : list Z)
    (fh : nat) (p : proto) (out_hdrs : Z) (out : list Z) : xres (list Z) :=
  if byte m 7 <=? 1 then XIcmp J64_TTL E_TTL 0
  else
    let$ seg := of_res (segments_left lin m 0) in
    match seg with
    | Some o => XIcmp J64_SEGMENTS_LEFT E_HDR_FIELD (Z.of_nat o)
    | None =>
        let$ proto := xlat_proto lin m 0 in
        let f := frag_ptr 0 fh in
        let len := Z.of_nat (length out) in
        let out := put 0 [69] out in
        let out := put 1 [flow_tos c (xlat_tos c m 0)] out in
        let out := put 2 (octets 2 (u16 len)) out in
        let out := put 4 (generate_ipv4_id ident m f) out in
        let out := put 6 (xlat_frag_off m f (generate_df_flag false 0 sk p out_hdrs len)) out in
        let out := put 8 [byte m 7 - 1] out in
        let out := put 9 [proto] out in
        let out := put 12 (octets 4 saddr) out in
        let out := put 16 (octets 4 daddr) out in
        XOk (ip_fast_csum le out)
    end.

(** src/mod/common/rfc7915/6to4.c:674-697 ttp64_ipv4_internal. The inner packet is at [h] of [m];
    skb->data is there too, so that is what pkt->frag_offset, which nobody
    updated, is now relative to. [in_hdrs] and [out_hdrs] are the inner packets'
    pkt_hdrs_len. [out] begins with the inner IPv4 header. *)
Definition ttp64_ipv4_internal (le : bool) (c : tosconf) (ident saddr daddr : Z) (sk : skb) (lin : nat) (m : list Z)
    (h fh : nat) (p : proto) (in_hdrs out_hdrs : Z) (out : list Z) : xres (list Z) :=
  let f := frag_ptr h fh in
  let$ _ := of_res (match f with Some f => direct lin f 8 | None => Ok tt end) in
  let$ proto := xlat_proto lin m h in
  let tot_len := u16 (u32 (40 + be16 m (h + 4) - in_hdrs + out_hdrs)) in
  let out := put 0 [69] out in
  let out := put 1 [xlat_tos c m h] out in
  let out := put 2 (octets 2 tot_len) out in
  let out := put 4 (generate_ipv4_id ident m f) out in
  let out := put 6 (xlat_frag_off m f (generate_df_flag true tot_len sk p out_hdrs 0)) out in
  let out := put 8 [byte m (h + 7)] out in
  let out := put 9 [proto] out in
  let out := put 12 (octets 4 saddr) out in
  let out := put 16 (octets 4 daddr) out in
  XOk (ip_fast_csum le out).

(** src/mod/common/rfc7915/6to4.c:899-914 update_total_length; [out] is the whole outgoing packet *)
Definition update_total_length (le : bool) (out : list Z) : list Z :=
  let len := Z.of_nat (length out) in
  if be16 out 2 =? len then out
  else
    let out := put 2 (octets 2 (u16 len)) out in
    let out := put 6 [byte out 6 - 64 * ((byte out 6 / 64) mod 2); byte out 7] out in
    ip_fast_csum le out.

(** src/mod/common/rfc7915/6to4.c:363-410 fragment_exceeds_mtu64: 0, 1 or 2. [first] is is_first_frag6() *)
Definition fragment_exceeds_mtu64 (sk : skb) (l3 l4 : Z) (first : bool) (mtu : Z) : Z :=
  let too_big := if first then 1 else 2 in
  if negb (gso sk =? 0) then (if mtu <? 20 + l4 + gso sk then too_big else 0)
  else if mtu <? u32 (headlen sk + (20 - l3)) then too_big
  else if existsb (fun l => u32 (mtu - 20) <? l) (flist sk) then 2 else 0.

(** src/mod/common/rfc7915/6to4.c:412-432 validate_size; [dst] is the route's MTU, if there is a route *)
Definition validate_size (dst : option Z) (is_error : bool) (sk : skb) (l3 l4 : Z) (first : bool) : xres unit :=
  match dst with
  | None => XOk tt
  | Some mtu =>
      if is_error then XOk tt
      else match fragment_exceeds_mtu64 sk l3 l4 first mtu with
      | 0 => XOk tt
      | 1 => XIcmp J_PKT_TOO_BIG E_FRAG_NEEDED (Z.max 1280 (u32 (mtu + 20)))
      | _ => XDrop J_PKT_TOO_BIG
      end
  end.

(** ** IPv4 to IPv6 *)

(** src/mod/common/rfc7915/4to6.c:15-18 xlat_nexthdr *)
Definition xlat_nexthdr (p : Z) : Z := if p =? 1 then 58 else p.

(** src/mod/common/rfc7915/4to6.c:855-900 ttcp46_ipv6_common. The IPv4 header is at [h] of [m]. [out] is
    the outgoing packet; [next] is whether there are more outgoing fragments. *)
Definition ttcp46_ipv6_common (reset_tc hairpin inner next : bool) (m : list Z) (h : nat) (out : list Z) : xres (list Z) :=
  let tos := byte m (h + 1) in
  let out := put 0 [96 + byte out 0 mod 16] out in
  let out := put 0 [16 * (byte out 0 / 16) + (if reset_tc then 0 else tos / 16)] out in
  let out := put 1 [if reset_tc then 0 else u8 (tos * 16)] out in
  let out := put 2 [0] out in
  let out := put 3 [0] out in
  let ttl := byte m (h + 8) in
  let$ hl := (if negb inner && negb hairpin then
                if ttl <=? 1 then XIcmp J46_TTL E_TTL 0 else XOk (ttl - 1)
              else XOk ttl) in
  let out := put 7 [hl] out in
  if fragmented4 m h || next then
    let out := put 40 [byte out 6] out in
    let out := put 6 [44] out in
    let out := put 41 [0] out in
    let out := put 42 (build_ipv6_frag_off_field (frag_off4 m h) (mf4 m h)) out in
    XOk (put 44 (build_id_field m h) out)
  else XOk out.

(** src/mod/common/rfc7915/4to6.c:824-853 autofill_hdr6. The list is the chain of outgoing sk_buffs;
    [off] is frag_offset. *)
Fixpoint autofill (hdrs : list Z) (first_mf : bool) (off : Z) (outs : list (list Z)) : list (list Z) :=
  match outs with
  | [] => []
  | o :: os =>
      let len := Z.of_nat (length o) in
      let o := put 0 hdrs o in
      let o := put 4 (octets 2 (u16 (len - 40))) o in
      let o := put 42 (build_ipv6_frag_off_field off (match os with [] => first_mf | _ => true end)) o in
      o :: autofill hdrs first_mf (u16 (off + len - 48)) os
  end.
Definition autofill_hdr6 (outs : list (list Z)) : list (list Z) :=
  match outs with
  | [] => []
  | [o] => [o]
  | o :: os =>
      let off := u16 (frag_off6 o 40 + Z.of_nat (length o) - 48) in
      let mf := mf6 o 40 in
      let o := put 42 [byte o 42; 2 * (byte o 43 / 2) + 1] o in
      o :: autofill (firstn 48 o) mf off os
  end.

(** src/mod/common/rfc7915/4to6.c:903-934 ttp46_ipv6_external, for a packet whose options do not loop
    (C40): [fuel] is the fuel of [has_unexpired_src_route] *)
Definition ttp46_ipv6_external (fuel : nat) (reset_tc hairpin : bool) (saddr daddr : Z) (lin : nat) (m : list Z)
    (outs : list (list Z)) : xres (list (list Z)) :=
  match outs with
  | [] => XUB
  | out :: next =>
      let$ route := of_res (has_unexpired_src_route fuel lin m 0) in
      if route then XIcmp J46_SRC_ROUTE E_SRC_ROUTE 0
      else
        let len := Z.of_nat (length out) in
        let out := put 6 [xlat_nexthdr (byte m 9)] out in
        let$ out := ttcp46_ipv6_common reset_tc hairpin false (match next with [] => false | _ => true end) m 0 out in
        let out := put 4 (octets 2 (u16 (len - 40))) out in
        let out := put 8 (octets 16 saddr) out in
        let out := put 24 (octets 16 daddr) out in
        XOk (autofill_hdr6 (out :: next))
  end.

(** src/mod/common/rfc7915/4to6.c:936-960 ttp46_ipv6_internal. [in_hdrs] and [out_hdrs] are the inner
    packets' pkt_hdrs_len; [out] begins with the inner IPv6 header. *)
Definition ttp46_ipv6_internal (reset_tc hairpin : bool) (saddr daddr : Z) (m : list Z) (h : nat) (in_hdrs out_hdrs : Z)
    (out : list Z) : xres (list Z) :=
  let out := put 6 [xlat_nexthdr (byte m (h + 9))] out in
  let$ out := ttcp46_ipv6_common reset_tc hairpin true false m h out in
  let out := put 4 (octets 2 (u16 (u32 (be16 m (h + 2) - in_hdrs + out_hdrs - 40)))) out in
  let out := put 8 (octets 16 saddr) out in
  XOk (put 24 (octets 16 daddr) out).

(** src/mod/common/rfc7915/4to6.c:336-357 get_frag_max_size; [hdrs] is pkt_hdrs_len(in) *)
Definition get_frag_max_size (sk : skb) (hdrs : Z) : Z :=
  fold_left (fun mx l => Z.max mx (l + 48)) (flist sk) (headlen sk - hdrs + 48).

(** src/mod/common/rfc7915/4to6.c:359-396 fragment_exceeds_mtu46. [frag] is will_need_frag_hdr() *)
Definition fragment_exceeds_mtu46 (sk : skb) (frag : bool) (hdrs l4 mtu : Z) : bool :=
  let out_hdrs := 40 + (if frag then 8 else 0) + l4 in
  if negb (gso sk =? 0) then mtu <? out_hdrs + gso sk
  else match flist sk with
  | _ :: _ => mtu <? get_frag_max_size sk hdrs
  | [] => mtu <? out_hdrs + (slen sk - hdrs)
  end.

(** src/mod/common/rfc7915/4to6.c:706-753, in ttp46_alloc_skb: fast path (one packet) or slow path, with the
    maximum packet length. *)
Inductive plan := FAST | SLOW (mpl : Z).
Definition plan46 (nexthop lim : Z) (is_error df frag : bool) (sk : skb) (hdrs l4 : Z) : xres plan :=
  let mpl := Z.min nexthop lim in
  if mpl <? 1280 then XDrop J46_BAD_MTU
  else if is_error then XOk FAST
  else if df then
    if fragment_exceeds_mtu46 sk frag hdrs l4 nexthop
    then XIcmp J_PKT_TOO_BIG E_FRAG_NEEDED (Z.max 576 (u32 (nexthop - 20)))
    else XOk FAST
  else if fragment_exceeds_mtu46 sk frag hdrs l4 mpl then XOk (SLOW mpl)
  else XOk FAST.

(** src/mod/common/rfc7915/4to6.c:478-547 allocate_slow: the pieces of the layer 3 payload, one per
    outgoing sk_buff. Allocation failures (the packet is dropped) are left out. *)
Fixpoint pieces (fuel : nat) (per : nat) (pl : list Z) : list (list Z) :=
  match fuel with
  | O => []
  | S fuel =>
      match pl with
      | [] => []
      | _ => if (per <? length pl)%nat then firstn per pl :: pieces fuel per (skipn per pl) else [pl]
      end
  end.
(** Each sk_buff is 48 octets of headers to be filled ([fresh i], whatever
    alloc_skb() left there) and its piece. *)
Fixpoint with_headers (fresh : nat -> list Z) (i : nat) (ps : list (list Z)) : list (list Z) :=
  match ps with [] => [] | p :: ps => (fresh i ++ p) :: with_headers fresh (S i) ps end.
Definition allocate_slow (fresh : nat -> list Z) (mpl : Z) (payload : list Z) : list (list Z) :=
  with_headers fresh 0 (pieces (length payload) (Z.to_nat (8 * (u32 (mpl - 48) / 8))) payload).
