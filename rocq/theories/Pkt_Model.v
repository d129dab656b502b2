(** Parsing of incoming packets.
    Sources: src/mod/common/packet.c, src/mod/common/packet.h,
    src/mod/common/ipv6_hdr_iterator.c, src/mod/common/rfc7915/4to6.c (source
    routes), src/mod/common/rfc7915/common.c (packets inside ICMP errors).
    A packet is its octets from skb->data on, which is where the network header
    is (skb_network_offset() = 0). Its first [lin] octets are in the linear
    area; the others in pages, where skb_header_pointer() finds them but where
    no pointer must go. Offsets are natural numbers: the C code adds to them
    only after a checked read, so its 32 bit sums do not wrap.
    Not modelled: fail_if_shared and fail_if_broken_offset (properties of the
    kernel's skb), log messages, statistics other than which one. *)
Require Import Verif.Base Verif.Rtrie_Model Verif.Pool4_Model Verif.Nat64_Model.

Definition byte (m : list Z) (o : nat) : Z := nth o m 0.
Definition be16 (m : list Z) (o : nat) : Z := 256 * byte m o + byte m (S o).
Definition be32 (m : list Z) (o : nat) : Z := 65536 * be16 m o + be16 m (o + 2).

(** skb_header_pointer(skb, off, n, buffer) is not NULL; the octets can then be
    read, wherever they are *)
Definition can_read (m : list Z) (off n : nat) : bool := (off + n <=? length m)%nat.
(** Octets accessed through a pointer into the linear area. *)
Definition direct (lin : nat) (off n : nat) : res unit := if (off + n <=? lin)%nat then Ok tt else UB.
(** pskb_may_pull: the new size of the linear area; [mem] tells whether memory
    can be allocated when it has to grow *)
Definition may_pull (mem : bool) (m : list Z) (lin n : nat) : option nat :=
  if (n <=? lin)%nat then Some lin
  else if (length m <? n)%nat then None
  else if mem then Some n else None.

(** The statistics of the drops. *)
Inductive why := SKB_TRUNCATED | HDR6 | HDR4 | TWICE_FRAG | FRAG_THEN_EXT | FRAGMENTED_ICMP.
Inductive parsed (A : Type) := Good (a : A) | Bad (w : why) | BadFuel.
Arguments Good {A} a. Arguments Bad {A} w. Arguments BadFuel {A}.
Definition pbind {A B} (m : parsed A) (f : A -> parsed B) : parsed B :=
  match m with Good a => f a | Bad w => Bad w | BadFuel => BadFuel end.

(** src/mod/common/packet.c:17-32 struct pkt_metadata *)
Record meta := Meta { fhdr : nat; l4p : proto; l4off : nat; payoff : nat }.

(** ** Header fields *)

(** src/mod/common/packet.h:92-95 get_fragment_offset_ipv6: frag_off & 0xFFF8 *)
Definition frag_off6 (m : list Z) (fh : nat) : Z := 8 * (be16 m (fh + 2) / 8).
(** src/mod/common/packet.h:80-83 is_mf_set_ipv6 *)
Definition mf6 (m : list Z) (fh : nat) : bool := be16 m (fh + 2) mod 2 =? 1.
(** src/mod/common/packet.h:98-103 get_fragment_offset_ipv4 *)
Definition frag_off4 (m : list Z) (h : nat) : Z := 8 * (be16 m (h + 6) mod 8192).
(** src/mod/common/packet.h:86-89 is_mf_set_ipv4 and 74-77 is_df_set *)
Definition mf4 (m : list Z) (h : nat) : bool := (be16 m (h + 6) / 8192) mod 2 =? 1.
Definition df4 (m : list Z) (h : nat) : bool := (be16 m (h + 6) / 16384) mod 2 =? 1.
(** src/mod/common/packet.h:135-138 is_fragmented_ipv4 and 140-145 is_fragmented_ipv6 *)
Definition fragmented4 (m : list Z) (h : nat) : bool := negb (frag_off4 m h =? 0) || mf4 m h.
Definition fragmented6 (m : list Z) (fh : nat) : bool := negb (frag_off6 m fh =? 0) || mf6 m fh.
(** src/mod/common/packet.h:186-189 tcp_hdr_len *)
Definition tcp_hlen (m : list Z) (o : nat) : nat := 4 * Z.to_nat (byte m (o + 12) / 16).
(** iphdr.ihl << 2 *)
Definition ip_hlen (m : list Z) (o : nat) : nat := 4 * Z.to_nat (byte m o mod 16).

(** NEXTHDR_HOP, NEXTHDR_ROUTING and NEXTHDR_DEST *)
Definition is_ext (nh : Z) : bool := (nh =? 0) || (nh =? 43) || (nh =? 60).

(** ** IPv6 *)

(** src/mod/common/packet.c:136-243 summarize_skb6, the loop *)
Fixpoint sum6 (fuel : nat) (m : list Z) (nh : Z) (off fh : nat) (first : bool) : parsed meta :=
  match fuel with
  | O => BadFuel
  | S fuel =>
    if nh =? 6 then
      if first then
        if can_read m off 20 then Good (Meta fh TCP off (off + tcp_hlen m off)) else Bad SKB_TRUNCATED
      else Good (Meta fh TCP off off)
    else if nh =? 17 then Good (Meta fh UDP off (if first then off + 8 else off))
    else if nh =? 58 then Good (Meta fh ICMP off (if first then off + 8 else off))
    else if nh =? 44 then
      if negb (fh =? 0)%nat then Bad TWICE_FRAG
      else if can_read m off 8 then sum6 fuel m (byte m off) (off + 8) off (frag_off6 m off =? 0)
      else Bad SKB_TRUNCATED
    else if is_ext nh then
      if negb (fh =? 0)%nat then Bad FRAG_THEN_EXT
      else if can_read m off 2 then sum6 fuel m (byte m off) (off + 8 * Z.to_nat (byte m (off + 1) + 1)) fh first
      else Bad SKB_TRUNCATED
    else Good (Meta fh OTHER off off)
  end.
(** ... and what precedes it *)
Definition summarize_skb6 (m : list Z) (h : nat) : parsed meta :=
  if can_read m (h + 6) 1 then sum6 (S (length m)) m (byte m (h + 6)) (h + 40) 0 true else Bad SKB_TRUNCATED.

(** src/mod/common/packet.c:245-297 validate_inner6 *)
Definition validate_inner6 (mem : bool) (m : list Z) (lin outer_pay : nat) : parsed nat :=
  if negb (can_read m outer_pay 40) then Bad SKB_TRUNCATED
  else if negb (byte m outer_pay / 16 =? 6) then Bad HDR6
  else pbind (summarize_skb6 m outer_pay) (fun mt =>
    if negb (fhdr mt =? 0)%nat && negb (can_read m (fhdr mt) 8) then Bad SKB_TRUNCATED
    else if negb (fhdr mt =? 0)%nat && negb (frag_off6 m (fhdr mt) =? 0) then Bad HDR6
    else
      let inner_icmp := match l4p mt with ICMP => true | _ => false end in
      if inner_icmp && negb (can_read m (l4off mt) 8) then Bad SKB_TRUNCATED
      else if inner_icmp && is_icmp6_error (byte m (l4off mt)) then Bad HDR6
      else match may_pull mem m lin (payoff mt) with Some l => Good l | None => Bad SKB_TRUNCATED end).

(** src/mod/common/packet.c:299-329 handle_icmp6: the size of the linear area *)
Definition handle_icmp6 (mem : bool) (m : list Z) (lin : nat) (mt : meta) : parsed nat :=
  if negb (fhdr mt =? 0)%nat && negb (can_read m (fhdr mt) 8) then Bad SKB_TRUNCATED
  else if negb (fhdr mt =? 0)%nat && fragmented6 m (fhdr mt) then Bad FRAGMENTED_ICMP
  else if negb (can_read m (l4off mt) 8) then Bad SKB_TRUNCATED
  else if is_icmp6_error (byte m (l4off mt)) then validate_inner6 mem m lin (payoff mt)
  else Good lin.

(** src/mod/common/packet.c:331-382 pkt_init_ipv6: what the packet looks like and
    the size of the linear area. The first pull is that of paranoid_validations. *)
Definition pkt_init_ipv6 (mem : bool) (m : list Z) (lin : nat) : parsed (meta * nat) :=
  match may_pull mem m lin 40 with
  | None => Bad SKB_TRUNCATED
  | Some lin =>
    if negb (Z.of_nat (length m) =? 40 + be16 m 4) then Bad HDR6
    else pbind (summarize_skb6 m 0) (fun mt =>
      pbind (match l4p mt with ICMP => handle_icmp6 mem m lin mt | _ => Good lin end) (fun lin =>
        match may_pull mem m lin (payoff mt) with
        | Some lin => Good (mt, lin)
        | None => Bad SKB_TRUNCATED
        end))
  end.

(** *** The iterator *)

(** src/mod/common/ipv6_hdr_iterator.c:11-38 hdr_iterator_next; [None] is the
    end. ipv6_hdr_iterator.h: hdr_type and data. *)
Definition hdr_iterator_next (lin : nat) (m : list Z) (ty : Z) (data : nat) : res (option (Z * nat)) :=
  if is_ext ty then
    let! _ := direct lin data 2 in Ok (Some (byte m data, data + 8 + 8 * Z.to_nat (byte m (S data)))%nat)
  else if ty =? 44 then
    let! _ := direct lin data 1 in Ok (Some (byte m data, data + 8)%nat)
  else Ok None.

(** src/mod/common/ipv6_hdr_iterator.c:40-44 hdr_iterator_last *)
Fixpoint iter_last (fuel : nat) (lin : nat) (m : list Z) (ty : Z) (data : nat) : res (Z * nat) :=
  match fuel with
  | O => NoFuel
  | S fuel =>
    let! n := hdr_iterator_next lin m ty data in
    match n with Some (ty, data) => iter_last fuel lin m ty data | None => Ok (ty, data) end
  end.
(** ... from the header at [h] *)
Definition hdr_iterator_last (lin : nat) (m : list Z) (h : nat) : res (Z * nat) :=
  let! _ := direct lin (h + 6) 1 in iter_last (S (length m)) lin m (byte m (h + 6)) (h + 40).

(** src/mod/common/ipv6_hdr_iterator.c:46-56 hdr_iterator_find *)
Fixpoint iter_find (fuel : nat) (lin : nat) (m : list Z) (ty : Z) (data : nat) (want : Z) : res (option nat) :=
  match fuel with
  | O => NoFuel
  | S fuel =>
    if ty =? want then Ok (Some data)
    else
      let! n := hdr_iterator_next lin m ty data in
      match n with Some (ty, data) => iter_find fuel lin m ty data want | None => Ok None end
  end.
Definition hdr_iterator_find (lin : nat) (m : list Z) (h : nat) (want : Z) : res (option nat) :=
  let! _ := direct lin (h + 6) 1 in iter_find (S (length m)) lin m (byte m (h + 6)) (h + 40) want.

(** src/mod/common/rfc7915/6to4.c:603-619 has_nonzero_segments_left: the location *)
Definition segments_left (lin : nat) (m : list Z) (h : nat) : res (option nat) :=
  let! r := hdr_iterator_find lin m h 43 in
  match r with
  | None => Ok None
  | Some rt => let! _ := direct lin (rt + 3) 1 in if byte m (rt + 3) =? 0 then Ok None else Ok (Some (rt - h + 3)%nat)
  end.

(** ** IPv4 *)

(** src/mod/common/packet.c:384-432 validate_inner4 *)
Definition validate_inner4 (mem : bool) (m : list Z) (lin p : nat) : parsed nat :=
  if negb (can_read m p 20) then Bad SKB_TRUNCATED
  else
    let ihl := ip_hlen m p in
    if negb (byte m p / 16 =? 4) then Bad HDR4
    else if (ihl <? 20)%nat then Bad HDR4
    else if be16 m (p + 2) <? Z.of_nat ihl then Bad HDR4
    else if negb (frag_off4 m p =? 0) then Bad HDR4
    else
      let off := (p + ihl)%nat in
      let pr := byte m (p + 9) in
      let pull n := match may_pull mem m lin n with Some l => Good l | None => Bad SKB_TRUNCATED end in
      if pr =? 6 then if can_read m off 20 then pull (off + tcp_hlen m off)%nat else Bad SKB_TRUNCATED
      else if pr =? 17 then pull (off + 8)%nat
      else if pr =? 1 then pull (off + 8)%nat
      else pull off.

(** src/mod/common/packet.c:434-464 handle_icmp4 *)
Definition handle_icmp4 (mem : bool) (m : list Z) (lin : nat) (mt : meta) : parsed nat :=
  if fragmented4 m 0 then Bad FRAGMENTED_ICMP
  else if negb (can_read m (l4off mt) 8) then Bad SKB_TRUNCATED
  else if is_icmp4_error (byte m (l4off mt)) then validate_inner4 mem m lin (payoff mt)
  else Good lin.

(** src/mod/common/packet.c:466-505 summarize_skb4 *)
Definition summarize_skb4 (mem : bool) (m : list Z) (lin : nat) : parsed (meta * nat) :=
  let off := ip_hlen m 0 in
  let first := frag_off4 m 0 =? 0 in
  let pr := byte m 9 in
  if pr =? 6 then
    if first then
      if can_read m off 20 then Good (Meta 0 TCP off (off + tcp_hlen m off), lin) else Bad SKB_TRUNCATED
    else Good (Meta 0 TCP off off, lin)
  else if pr =? 17 then Good (Meta 0 UDP off (if first then off + 8 else off), lin)
  else if pr =? 1 then
    let mt := Meta 0 ICMP off (if first then off + 8 else off) in
    pbind (handle_icmp4 mem m lin mt) (fun lin => Good (mt, lin))
  else Good (Meta 0 OTHER off off, lin).

(** src/mod/common/packet.c:507-550 pkt_init_ipv4 *)
Definition pkt_init_ipv4 (mem : bool) (m : list Z) (lin : nat) : parsed (meta * nat) :=
  match may_pull mem m lin 20 with
  | None => Bad SKB_TRUNCATED
  | Some lin =>
    pbind (summarize_skb4 mem m lin) (fun r =>
      match may_pull mem m (snd r) (payoff (fst r)) with
      | Some lin => Good (fst r, lin)
      | None => Bad SKB_TRUNCATED
      end)
  end.

(** src/mod/common/rfc7915/4to6.c:774-810 has_unexpired_src_route on the header
    at [h], the loop: [cur] is current_opt, [fin] end_of_opts *)
Fixpoint src_route (fuel : nat) (lin : nat) (m : list Z) (cur fin : nat) : res bool :=
  match fuel with
  | O => NoFuel
  | S fuel =>
    let! _ := direct lin cur 1 in
    let o := byte m cur in
    if (o =? 131) || (o =? 137) then
      let! _ := direct lin (cur + 1) 2 in Ok (byte m (cur + 2) <=? byte m (cur + 1))
    else if o =? 0 then Ok false
    else
      let! next := (if o =? 1 then Ok (cur + 1)%nat else let! _ := direct lin (cur + 1) 1 in Ok (cur + Z.to_nat (byte m (cur + 1)))%nat) in
      if (fin <=? next)%nat then Ok false else src_route fuel lin m next fin
  end.
Definition has_unexpired_src_route (fuel : nat) (lin : nat) (m : list Z) (h : nat) : res bool :=
  let cur := (h + 20)%nat in
  let fin := (h + ip_hlen m h)%nat in
  if (fin <=? cur)%nat then Ok false else src_route fuel lin m cur fin.
