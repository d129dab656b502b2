(** Layer 4 checksums of translated packets.
    Sources: src/mod/common/rfc7915/6to4.c, src/mod/common/rfc7915/4to6.c,
    src/mod/common/rfc7915/common.c.
    The kernel's checksum helpers (csum_add, csum_sub, csum_fold, csum_partial,
    csum_ipv6_magic, csum_tcpudp_nofold, skb_checksum, skb_checksum_help) are not
    part of the repository; their definitions below follow the kernel's portable
    versions (include/net/checksum.h, include/asm-generic/checksum.h,
    net/ipv6/ip6_checksum.c). Architectures may add the words in another order;
    [fold_class] (Csum_Proofs) shows that this does not change any checksum.
    Memory is octets; [le] tells whether the machine is little endian. *)
Require Import Verif.Base.

(** ** Memory *)

(** A 16 and a 32 bit load, and a 16 bit store, in the machine's byte order. *)
Definition ld16 (le : bool) (a b : Z) : Z := if le then a + 256 * b else 256 * a + b.
Definition ld32 (le : bool) (a b c d : Z) : Z :=
  if le then ld16 le a b + 65536 * ld16 le c d else 65536 * ld16 le a b + ld16 le c d.
Definition st16 (le : bool) (v : Z) : list Z := if le then [v mod 256; v / 256] else [v / 256; v mod 256].
(** [put off x m]: the octets [x] written at offset [off] of [m]. *)
Definition put (off : nat) (x m : list Z) : list Z := firstn off m ++ x ++ skipn (off + length x) m.
(** The 16 bit field at [off]. *)
Definition get16 (le : bool) (off : nat) (m : list Z) : Z := ld16 le (nth off m 0) (nth (S off) m 0).

(** ** The kernel's helpers *)

(** ~x on __wsum and on __sum16 *)
Definition not32 (x : Z) : Z := 4294967295 - x.
Definition not16 (x : Z) : Z := 65535 - x.
(** csum_add: the sum, plus one if it overflowed; csum_sub(a, b) = csum_add(a, ~b) *)
Definition csum_add (a b : Z) : Z := let s := u32 (a + b) in s + (if s <? b then 1 else 0).
Definition csum_sub (a b : Z) : Z := csum_add a (not32 b).
(** csum_fold *)
Definition csum_fold (s : Z) : Z :=
  let s1 := s mod 65536 + s / 65536 in
  let s2 := s1 mod 65536 + s1 / 65536 in
  not16 s2.
(** csum_partial (and skb_checksum): the words of the octets, the last one padded with a zero octet *)
Fixpoint csum_partial (le : bool) (m : list Z) (sum : Z) : Z :=
  match m with
  | [] => sum
  | [a] => csum_add sum (ld16 le a 0)
  | a :: b :: m' => csum_partial le m' (csum_add sum (ld16 le a b))
  end.
(** The 32 bit words of the octets, added. *)
Fixpoint add_words32 (le : bool) (m : list Z) (sum : Z) : Z :=
  match m with
  | a :: b :: c :: d :: m' => add_words32 le m' (csum_add sum (ld32 le a b c d))
  | _ => sum
  end.
(** htonl(x) *)
Definition htonl (le : bool) (x : Z) : Z :=
  ld32 le (octet 4 x 0) (octet 4 x 1) (octet 4 x 2) (octet 4 x 3).
(** csum_ipv6_magic; the addresses are 128 bit numbers *)
Definition csum_ipv6_magic (le : bool) (saddr daddr len proto sum : Z) : Z :=
  let s := add_words32 le (octets 16 saddr) sum in
  let s := add_words32 le (octets 16 daddr) s in
  let s := csum_add s (htonl le len) in
  let s := csum_add s (htonl le proto) in
  csum_fold s.
(** csum_tcpudp_nofold: on little endian machines (proto + len) << 8 *)
Definition csum_tcpudp_nofold (le : bool) (saddr daddr len proto sum : Z) : Z :=
  let s := csum_add sum (htonl le saddr) in
  let s := csum_add s (htonl le daddr) in
  csum_add s (if le then u32 ((proto + len) * 256) else proto + len).
(** csum_tcpudp_magic; tcp_v4_check and udp_v4_check call it with 6 and 17,
    tcp_v6_check and udp_v6_check call csum_ipv6_magic with 6 and 17 *)
Definition csum_tcpudp_magic (le : bool) (saddr daddr len proto sum : Z) : Z :=
  csum_fold (csum_tcpudp_nofold le saddr daddr len proto sum).
(** skb_checksum_help, or the network card, on a CHECKSUM_PARTIAL packet whose
    checksum is at [off] of the segment *)
Definition finish_partial (le : bool) (off : nat) (seg : list Z) : list Z :=
  let c := csum_fold (csum_partial le seg 0) in
  put off (st16 le (if c =? 0 then 65535 else c)) seg.

(** sk_buff.ip_summed *)
Inductive summed := CS_NONE | CS_UNNECESSARY | CS_COMPLETE | CS_PARTIAL.
Definition is_partial (s : summed) : bool := match s with CS_PARTIAL => true | _ => false end.

(** ** TCP and UDP, IPv6 to IPv4 *)

(** src/mod/common/rfc7915/6to4.c:1068-1071 pseudohdr6_csum *)
Definition pseudohdr6_csum (le : bool) (src dst : Z) : Z := not32 (csum_ipv6_magic le src dst 0 0 0).
(** src/mod/common/rfc7915/6to4.c:1073-1076 pseudohdr4_csum *)
Definition pseudohdr4_csum (le : bool) (src dst : Z) : Z := csum_tcpudp_nofold le src dst 0 0 0.

(** src/mod/common/rfc7915/6to4.c:1078-1104 update_csum_6to4 *)
Definition update_csum_6to4 (le : bool) (csum16 src6 dst6 : Z) (in_l4 : list Z) (src4 dst4 : Z) (out_l4 : list Z) : Z :=
  let c := not32 csum16 in
  let c := csum_sub c (pseudohdr6_csum le src6 dst6) in
  let c := csum_sub c (csum_partial le in_l4 0) in
  let c := csum_add c (pseudohdr4_csum le src4 dst4) in
  let c := csum_add c (csum_partial le out_l4 0) in
  csum_fold c.

(** The new source and destination ports of a stateful translation (big endian
    in the packet); stateless translation keeps the ports.
    src/mod/common/rfc7915/6to4.c:1054-1059 get_src_port64 and src/mod/common/rfc7915/6to4.c:1061-1066 get_dst_port64 *)
Definition new_ports (ports : option (Z * Z)) (seg : list Z) : list Z :=
  match ports with Some (s, d) => put 0 (octets 2 s ++ octets 2 d) seg | None => seg end.

(** src/mod/common/rfc7915/6to4.c:1106-1140 ttp64_tcp: the translated segment. [seg] is the TCP header
    (20 octets or more) and what follows; the checksum is at offset 16. The
    result of the PARTIAL case is what leaves after the checksum is finished. *)
Definition ttp64_tcp (le : bool) (s : summed) (ports : option (Z * Z)) (src6 dst6 src4 dst4 : Z) (seg : list Z) : list Z :=
  let out := new_ports ports seg in
  if is_partial s then
    finish_partial le 16 (put 16 (st16 le (not16 (csum_tcpudp_magic le src4 dst4 (Z.of_nat (length seg)) 6 0))) out)
  else
    let copy := put 16 [0; 0] (firstn 20 seg) in
    let out := put 16 [0; 0] out in
    put 16 (st16 le (update_csum_6to4 le (get16 le 16 seg) src6 dst6 copy src4 dst4 (firstn 20 out))) out.

(** src/mod/common/rfc7915/6to4.c:1142-1178 ttp64_udp; the checksum is at offset 6, CSUM_MANGLED_0 is 0xffff *)
Definition ttp64_udp (le : bool) (s : summed) (ports : option (Z * Z)) (src6 dst6 src4 dst4 : Z) (seg : list Z) : list Z :=
  let out := new_ports ports seg in
  if is_partial s then
    finish_partial le 6 (put 6 (st16 le (not16 (csum_tcpudp_magic le src4 dst4 (Z.of_nat (length seg)) 17 0))) out)
  else
    let copy := put 6 [0; 0] (firstn 8 seg) in
    let out := put 6 [0; 0] out in
    let c := update_csum_6to4 le (get16 le 6 seg) src6 dst6 copy src4 dst4 (firstn 8 out) in
    put 6 (st16 le (if c =? 0 then 65535 else c)) out.

(** ** TCP and UDP, IPv4 to IPv6 *)

(** src/mod/common/rfc7915/4to6.c:1383-1405 update_csum_4to6 *)
Definition update_csum_4to6 (le : bool) (csum16 src4 dst4 : Z) (in_l4 : list Z) (src6 dst6 : Z) (out_l4 : list Z) : Z :=
  let c := not32 csum16 in
  let c := csum_sub c (csum_tcpudp_nofold le src4 dst4 0 0 0) in
  let c := csum_sub c (csum_partial le in_l4 0) in
  let c := csum_add c (not32 (csum_ipv6_magic le src6 dst6 0 0 0)) in
  let c := csum_add c (csum_partial le out_l4 0) in
  csum_fold c.

(** src/mod/common/rfc7915/4to6.c:1357-1377 skb_list_csum: over the transport part of every fragment *)
Definition skb_list_csum (le : bool) (frags : list (list Z)) (src6 dst6 proto : Z) : Z :=
  let total := fold_left (fun n f => n + Z.of_nat (length f)) frags 0 in
  csum_ipv6_magic le src6 dst6 total proto (fold_left (fun c f => csum_partial le f c) frags 0).

(** The fragments of the outgoing packet: [first :: next] are what they carry of
    the datagram; [next] is empty unless Jool fragments (Slow Path). *)

(** src/mod/common/rfc7915/4to6.c:1443-1481 ttp46_tcp; the PARTIAL case on a single packet leaves the
    rest of the computation to the system *)
Definition ttp46_tcp (le : bool) (s : summed) (ports : option (Z * Z)) (src4 dst4 src6 dst6 : Z) (first : list Z) (next : list (list Z)) : list (list Z) :=
  let out := new_ports ports first in
  if is_partial s then
    match next with
    | _ :: _ =>
      let out := put 16 [0; 0] out in
      put 16 (st16 le (skb_list_csum le (out :: next) src6 dst6 6)) out :: next
    | [] => [finish_partial le 16 (put 16 (st16 le (not16 (csum_ipv6_magic le src6 dst6 (Z.of_nat (length first)) 6 0))) out)]
    end
  else
    let copy := put 16 [0; 0] (firstn 20 first) in
    let out := put 16 [0; 0] out in
    put 16 (st16 le (update_csum_4to6 le (get16 le 16 first) src4 dst4 copy src6 dst6 (firstn 20 out))) out :: next.

(** src/mod/common/rfc7915/4to6.c:1407-1441 can_compute_csum *)
Definition can_compute_csum (nat64 mf amend_csum0 : bool) : bool :=
  if nat64 then true else negb (mf || negb amend_csum0).

(** src/mod/common/rfc7915/4to6.c:1483-1532 ttp46_udp; [None] is a drop (JSTAT46_FRAGMENTED_ZERO_CSUM) *)
Definition ttp46_udp (le : bool) (s : summed) (nat64 mf amend_csum0 : bool) (ports : option (Z * Z)) (src4 dst4 src6 dst6 : Z) (first : list Z) (next : list (list Z)) : option (list (list Z)) :=
  let out := new_ports ports first in
  let partial := finish_partial le 6 (put 6 (st16 le (not16 (csum_ipv6_magic le src6 dst6 (Z.of_nat (length first)) 17 0))) out) :: next in
  if get16 le 6 first =? 0 then
    if can_compute_csum nat64 mf amend_csum0 then Some partial else None
  else if negb (is_partial s) then
    let copy := put 6 [0; 0] (firstn 8 first) in
    let out := put 6 [0; 0] out in
    Some (put 6 (st16 le (update_csum_4to6 le (get16 le 6 first) src4 dst4 copy src6 dst6 (firstn 8 out))) out :: next)
  else
    match next with
    | _ :: _ =>
      let out := put 6 [0; 0] out in
      Some (put 6 (st16 le (skb_list_csum le (out :: next) src6 dst6 17)) out :: next)
    | [] => Some partial
    end.

(** ** ICMP *)

(** src/mod/common/rfc7915/6to4.c:823-855 update_icmp4_csum: [hdr6] is the ICMPv6 header, [hdr4] the
    ICMPv4 one with anything in its checksum, [len] pkt_datagram_len(in) *)
Definition update_icmp4_csum (le : bool) (src6 dst6 len : Z) (hdr6 hdr4 : list Z) : list Z :=
  let c := not32 (get16 le 2 hdr6) in
  let c := csum_sub c (not32 (csum_ipv6_magic le src6 dst6 len 58 0)) in
  let c := csum_sub c (csum_partial le (put 2 [0; 0] hdr6) 0) in
  let out := put 2 [0; 0] hdr4 in
  let c := csum_add c (csum_partial le out 0) in
  put 2 (st16 le (csum_fold c)) out.

(** src/mod/common/rfc7915/4to6.c:1122-1143 update_icmp6_csum *)
Definition update_icmp6_csum (le : bool) (src6 dst6 len : Z) (hdr4 hdr6 : list Z) : list Z :=
  let out := put 2 [0; 0] hdr6 in
  let c := not32 (get16 le 2 hdr4) in
  let c := csum_sub c (csum_partial le (put 2 [0; 0] hdr4) 0) in
  let c := csum_add c (csum_partial le out 0) in
  put 2 (st16 le (csum_ipv6_magic le src6 dst6 len 58 c)) out.

(** src/mod/common/rfc7915/6to4.c:861-874 compute_icmp4_csum, of the whole ICMPv4 message *)
Definition compute_icmp4_csum (le : bool) (msg : list Z) : list Z :=
  let m := put 2 [0; 0] msg in
  put 2 (st16 le (csum_fold (csum_partial le m 0))) m.

(** src/mod/common/rfc7915/4to6.c:1145-1162 compute_icmp6_csum *)
Definition compute_icmp6_csum (le : bool) (src6 dst6 : Z) (msg : list Z) : list Z :=
  let m := put 2 [0; 0] msg in
  put 2 (st16 le (csum_ipv6_magic le src6 dst6 (Z.of_nat (length msg)) 58 (csum_partial le m 0))) m.

(** src/mod/common/rfc7915/6to4.c:876-897 validate_icmp6_csum: false is a drop *)
Definition validate_icmp6_csum (le : bool) (s : summed) (src6 dst6 : Z) (msg : list Z) : bool :=
  match s with
  | CS_NONE => csum_ipv6_magic le src6 dst6 (Z.of_nat (length msg)) 58 (csum_partial le msg 0) =? 0
  | _ => true
  end.
(** src/mod/common/rfc7915/4to6.c:1164-1180 validate_icmp4_csum *)
Definition validate_icmp4_csum (le : bool) (s : summed) (msg : list Z) : bool :=
  match s with CS_NONE => csum_fold (csum_partial le msg 0) =? 0 | _ => true end.

(** The echo headers. src/mod/common/rfc7915/6to4.c:1012-1021 (in ttp64_icmp) and
    src/mod/common/rfc7915/4to6.c:1304-1315 (in ttp46_icmp): type, code 0, checksum, identifier, sequence number. [id] is
    the outgoing tuple's identifier in stateful translation. *)
Definition echo64 (le : bool) (src6 dst6 : Z) (id : option Z) (msg : list Z) : list Z :=
  let hdr6 := firstn 8 msg in
  let hdr4 := [if nth 0 msg 0 =? 128 then 8 else 0; 0; nth 2 msg 0; nth 3 msg 0]
    ++ (match id with Some i => octets 2 i | None => [nth 4 msg 0; nth 5 msg 0] end) ++ [nth 6 msg 0; nth 7 msg 0] in
  update_icmp4_csum le src6 dst6 (Z.of_nat (length msg)) hdr6 hdr4 ++ skipn 8 msg.
Definition echo46 (le : bool) (src6 dst6 : Z) (id : option Z) (msg : list Z) : list Z :=
  let hdr4 := firstn 8 msg in
  let hdr6 := [if nth 0 msg 0 =? 8 then 128 else 129; 0; nth 2 msg 0; nth 3 msg 0]
    ++ (match id with Some i => octets 2 i | None => [nth 4 msg 0; nth 5 msg 0] end) ++ [nth 6 msg 0; nth 7 msg 0] in
  update_icmp6_csum le src6 dst6 (Z.of_nat (length msg)) hdr4 hdr6 ++ skipn 8 msg.
