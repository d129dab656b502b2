(** The translation of a whole packet: from the octets which came in to those
    which go out. Puts together Pkt_Model (parsing), Hdr_Model (headers),
    Csum_Model (checksums) and Ext_Model (ICMP extensions).
    Sources: src/mod/common/rfc7915/core.c, src/mod/common/rfc7915/common.c,
    src/mod/common/rfc7915/6to4.c, src/mod/common/rfc7915/4to6.c.
    What comes from elsewhere is in the environment: the new addresses (Siit_Model,
    Rfc6052, BIB), the new ports and ICMP identifier, the route's MTU, the
    kernel's choice of identification, the memory the kernel hands out.
    Simplifications: allocation failures (drops) are left out; so is the mark and
    the other metadata of the sk_buff. An ICMP error inside of an ICMP error is
    followed down to its own inner packet, not back up ([nested]). *)
Require Import Verif.Base Verif.Pool4_Model Verif.Rtrie_Model Verif.Nat64_Model Verif.Csum_Model Verif.Pkt_Model
  Verif.Hdr_Model Verif.Ext_Model.

(** A struct in6_addr at [o] *)
Definition be128 (m : list Z) (o : nat) : Z := be_of (firstn 16 (skipn o m)).
(** pskb_copy(), skb_pull(), skb_push(): [n] octets again in front of offset [k]
    of [m], whose buffer begins with [head] (the headroom) *)
Definition repushed (head m : list Z) (k n : nat) : list Z :=
  let before := head ++ firstn k m in skipn (length before - n) before ++ skipn k m.
(** Stands for what becomes of an ICMP error inside of an ICMP error once its
    inner packet is translated. *)
Definition nested {A} : xres A := XDrop J_UNKNOWN.

(** src/mod/common/rfc7915/common.c:39-57, in move_pointers_in: the inner packet's protocol and the length of its
    layer 4 header, which is at [up] *)
Definition inner_l4 (lin : nat) (m : list Z) (ty : Z) (up : nat) : xres (proto * nat) :=
  if ty =? 6 then let$ _ := of_res (direct lin (up + 12) 1) in XOk (TCP, tcp_hlen m up)
  else if ty =? 17 then XOk (UDP, 8%nat)
  else if (ty =? 1) || (ty =? 58) then XOk (ICMP, 8%nat)
  else XOk (OTHER, 0%nat).

(** ** IPv6 to IPv4 *)

Record env64 := Env64 {
  x_le : bool; x_tos : tosconf; x_id : Z; x_id' : Z;  (* __ip_select_ident(), for the outer and inner headers *)
  x_src : Z; x_dst : Z; x_src' : Z; x_dst' : Z;       (* new addresses, outer and inner *)
  x_ports : option (Z * Z);                           (* the outgoing tuple's, if stateful *)
  x_mtu : option Z; x_inmtu : option Z;               (* the route's, if there is one; the incoming device's *)
  x_sum : summed; x_flist : list Z; x_gso : Z         (* of the incoming sk_buff *)
}.
Definition rev_ports (p : option (Z * Z)) : option (Z * Z) := match p with Some (s, d) => Some (d, s) | None => None end.
Definition port_id (p : option (Z * Z)) : option Z := match p with Some (s, _) => Some s | None => None end.

(** src/mod/common/packet.h:123-126 is_first_frag6, of pkt_frag_hdr() *)
Definition first6 (m : list Z) (mt : meta) : bool := match fhdr mt with O => true | S _ => frag_off6 m (fhdr mt) =? 0 end.
(** src/mod/common/packet.h:393-397 pkt_is_icmp6_error *)
Definition error6 (m : list Z) (mt : meta) : bool :=
  match l4p mt with ICMP => is_icmp6_error (byte m (l4off mt)) | _ => false end.

(** src/mod/common/rfc7915/6to4.c:51-80 xlat64_internal_addresses: stateless translation reads them in the
    inner packet (become_inner_packet) *)
Definition internal_addresses64 (e : env64) (lin : nat) (m : list Z) (mt : meta) : xres unit :=
  match x_ports e with
  | Some _ => XOk tt
  | None =>
      let$ t := of_res (hdr_iterator_last lin m (payoff mt)) in
      let$ _ := inner_l4 lin m (fst t) (snd t) in
      of_res (direct lin (payoff mt) 40)
  end.

(** src/mod/common/rfc7915/6to4.c:196-234 compute_flowix64, with src/mod/common/rfc7915/6to4.c:82-104 xlat64_tcp_ports and
    src/mod/common/rfc7915/6to4.c:106-128 xlat64_udp_ports. Note that what is switched on is the protocol number,
    not the layer 4 protocol pkt_init_ipv6() found. *)
Definition compute_flowix64 (e : env64) (lin : nat) (m : list Z) (mt : meta) : xres unit :=
  let$ pr := xlat_proto lin m 0 in
  if (pr =? 6) || (pr =? 17) then
    match x_ports e with
    | Some _ => XOk tt
    | None => if first6 m mt then of_res (direct lin (l4off mt) 4) else XOk tt
    end
  else if pr =? 1 then
    let$ _ := of_res (direct lin (l4off mt) 2) in
    let type := byte m (l4off mt) in
    let$ _ := xlat64_icmp_type type (byte m (l4off mt + 1)) in
    if (type =? 128) || (type =? 129) then XOk tt else internal_addresses64 e lin m mt
  else XOk tt.

(** src/mod/common/rfc7915/6to4.c:434-526 ttp64_alloc_skb: the outgoing packet before anything is written to it.
    The pulls and pushes stay in the copy of the linear area. *)
Definition ttp64_alloc_skb (e : env64) (lin : nat) (m : list Z) (mt : meta) : xres (list Z) :=
  let$ _ := compute_flowix64 e lin m mt in
  let$ _ := validate_size (x_mtu e) (error6 m mt) (Skb (Z.of_nat (length m)) (Z.of_nat lin) (x_flist e) (x_gso e))
              (Z.of_nat (l4off mt)) (Z.of_nat (payoff mt - l4off mt)) (first6 m mt) in
  let l4 := (payoff mt - l4off mt)%nat in
  if first6 m mt && error6 m mt then
    let$ t := of_res (hdr_iterator_last lin m (payoff mt)) in
    XOk (repushed [] m (snd t) (20 + l4 + 20))
  else XOk (repushed [] m (payoff mt) (20 + l4)).

(** src/mod/common/rfc7915/common.c:165-181 xlat_l4_function with ttp64_tcp and ttp64_udp, and ttp64_icmp of a
    message which is no error. The segment is at [up] of [m] and at [uo] of [out];
    the header is copied over, what follows it is there already. *)
Definition ttp64_l4 (e : env64) (ports : option (Z * Z)) (src6 dst6 src4 dst4 : Z) (lin : nat) (m : list Z)
    (p : proto) (up l4 uo : nat) (out : list Z) : xres (list Z) :=
  let seg := skipn up m in
  match p with
  | TCP =>
      let$ _ := of_res (direct lin up (Nat.max 20 l4)) in
      XOk (put uo (firstn (Nat.max 20 l4) (ttp64_tcp (x_le e) (x_sum e) ports src6 dst6 src4 dst4 seg)) out)
  | UDP =>
      let$ _ := of_res (direct lin up 8) in
      XOk (put uo (firstn 8 (ttp64_udp (x_le e) (x_sum e) ports src6 dst6 src4 dst4 seg)) out)
  | ICMP =>
      let$ _ := of_res (direct lin up 8) in
      let type := byte m up in
      let$ _ := xlat64_icmp_type type (byte m (up + 1)) in
      if (type =? 128) || (type =? 129)
      then XOk (put uo (firstn 8 (echo64 (x_le e) src6 dst6 (port_id (x_ports e)) seg)) out)
      else nested
  | OTHER => XOk out
  end.

(** src/mod/common/rfc7915/common.c:183-216 ttpcomm_translate_inner_packet, and src/mod/common/rfc7915/common.c:96-111 move_pointers6. The
    outgoing inner packet is at 28 of [out]. *)
Definition inner64 (e : env64) (lin : nat) (m : list Z) (mt : meta) (out : list Z) : xres (list Z) :=
  let q := payoff mt in
  let$ t := of_res (hdr_iterator_last lin m q) in
  let up := snd t in
  let$ pl := inner_l4 lin m (fst t) up in
  let (p, l4) := (pl : proto * nat) in
  let$ inn := ttp64_ipv4_internal (x_le e) (x_tos e) (x_id' e) (x_src' e) (x_dst' e)
                (Skb (Z.of_nat (length m)) (Z.of_nat lin) (x_flist e) (x_gso e)) lin m q (fhdr mt) p
                (Z.of_nat (up - q + l4)) (Z.of_nat (20 + l4)) (skipn 28 out) in
  ttp64_l4 e (rev_ports (x_ports e)) (be128 m (q + 8)) (be128 m (q + 24)) (x_src' e) (x_dst' e) lin m p up l4 48
    (firstn 28 out ++ inn).

(** src/mod/common/rfc7915/6to4.c:963-989 post_icmp4error. (src/mod/common/rfc7915/6to4.c:861-874 compute_icmp4_csum is over
    everything after the IPv4 header.) *)
Definition post_icmp4error (e : env64) (extensions : bool) (lin : nat) (m : list Z) (mt : meta) (out : list Z) : xres (list Z) :=
  if negb (validate_icmp6_csum (x_le e) (x_sum e) (be128 m 8) (be128 m 24) (skipn (l4off mt) m)) then XDrop J64_ICMP_CSUM
  else
    let$ out := inner64 e lin m mt out in
    let$ out := (if extensions then handle_icmp4_extension (x_le e) (l4off mt) m out else XOk out) in
    let out := trim_576 (x_le e) out in
    XOk (firstn 20 out ++ compute_icmp4_csum (x_le e) (skipn 20 out)).

(** src/mod/common/rfc7915/6to4.c:996-1052 ttp64_icmp, of an error (the header is icmp64_header) *)
Definition ttp64_icmp_error (e : env64) (lin : nat) (m : list Z) (mt : meta) (out : list Z) : xres (list Z) :=
  let up := l4off mt in
  let$ _ := of_res (direct lin up 8) in
  let$ h := icmp64_header (port_id (x_ports e)) (x_inmtu e) (x_mtu e) (firstn 8 (skipn up m)) (firstn 8 (skipn 20 out)) in
  let out := put 20 h out in
  post_icmp4error e ((byte m up =? 1) || (byte m up =? 3)) lin m mt out.

(** src/mod/common/rfc7915/core.c:55-104 translating_the_packet, of an IPv6 packet which pkt_init_ipv6() accepted *)
Definition xlat64 (e : env64) (lin : nat) (m : list Z) (mt : meta) : xres (list Z) :=
  let l4 := (payoff mt - l4off mt)%nat in
  let$ out := ttp64_alloc_skb e lin m mt in
  let$ out := ttp64_ipv4_external (x_le e) (x_tos e) (x_id e) (x_src e) (x_dst e)
                (Skb (Z.of_nat (length m)) (Z.of_nat lin) (x_flist e) (x_gso e)) lin m (fhdr mt) (l4p mt) (Z.of_nat (20 + l4)) out in
  if first6 m mt then
    if error6 m mt then ttp64_icmp_error e lin m mt out
    else ttp64_l4 e (x_ports e) (be128 m 8) (be128 m 24) (x_src e) (x_dst e) lin m (l4p mt) (l4off mt) l4 20 out
  else XOk out.

(** ** IPv4 to IPv6 *)

Record env46 := Env46 {
  y_le : bool; y_reset : bool; y_hairpin : bool; y_amend : bool; (* reset-traffic-class, is_hairpin, amend-udp-checksum-zero *)
  y_src : Z; y_dst : Z; y_src' : Z; y_dst' : Z;
  y_ports : option (Z * Z);
  y_mtu : Z; y_lim : Z; y_inmtu : option Z; y_plateaus : list Z; (* the route's MTU, lowest-ipv6-mtu *)
  y_sum : summed; y_flist : list Z; y_gso : Z;
  y_head : list Z; y_fresh : nat -> list Z;                       (* headroom, and memory of new sk_buffs *)
  y_fuel : nat                                                    (* of has_unexpired_src_route *)
}.

(** src/mod/common/packet.h:118-121 is_first_frag4 *)
Definition first4 (m : list Z) (h : nat) : bool := frag_off4 m h =? 0.
(** src/mod/common/packet.h:399-403 pkt_is_icmp4_error *)
Definition error4 (m : list Z) (mt : meta) : bool :=
  match l4p mt with ICMP => is_icmp4_error (byte m (l4off mt)) | _ => false end.

(** src/mod/common/rfc7915/4to6.c:57-85 xlat46_internal_addresses *)
Definition internal_addresses46 (e : env46) (lin : nat) (m : list Z) (mt : meta) : xres unit :=
  match y_ports e with
  | Some _ => XOk tt
  | None =>
      let q := payoff mt in
      let$ _ := of_res (direct lin q 20) in
      let$ _ := inner_l4 lin m (byte m (q + 9)) (q + ip_hlen m q) in XOk tt
  end.

(** src/mod/common/rfc7915/4to6.c:220-246 compute_flowix46, with src/mod/common/rfc7915/4to6.c:87-110 xlat46_tcp_ports and
    src/mod/common/rfc7915/4to6.c:112-135 xlat46_udp_ports *)
Definition compute_flowix46 (e : env46) (lin : nat) (m : list Z) (mt : meta) : xres unit :=
  let pr := xlat_nexthdr (byte m 9) in
  if (pr =? 6) || (pr =? 17) then
    match y_ports e with
    | Some _ => XOk tt
    | None => if first4 m 0 then of_res (direct lin (l4off mt) 4) else XOk tt
    end
  else if pr =? 58 then
    let$ _ := of_res (direct lin (l4off mt) 2) in
    let type := byte m (l4off mt) in
    let$ _ := xlat46_icmp_type type (byte m (l4off mt + 1)) in
    if (type =? 8) || (type =? 0) then XOk tt else internal_addresses46 e lin m mt
  else XOk tt.

(** The length of the outgoing IPv6 headers (will_need_frag_hdr,
    src/mod/common/rfc7915/common.c:25-28) *)
Definition l3_len46 (m : list Z) (h : nat) : nat := if fragmented4 m h then 48%nat else 40%nat.

(** src/mod/common/rfc7915/4to6.c:398-476 allocate_fast. There is room for everything
    (src/mod/common/rfc7915/4to6.c:300-333 get_delta), unless options make it negative, which it takes for 0. *)
Definition allocate_fast (e : env46) (m : list Z) (mt : meta) : list Z :=
  let l4 := (payoff mt - l4off mt)%nat in
  if error4 m mt then
    let q := payoff mt in
    repushed (y_head e) m (q + ip_hlen m q) (l3_len46 m q + l4 + l3_len46 m 0)
  else repushed (y_head e) m (payoff mt) (l4 + l3_len46 m 0).

(** src/mod/common/rfc7915/4to6.c:561-767 ttp46_alloc_skb *)
Definition ttp46_alloc_skb (e : env46) (lin : nat) (m : list Z) (mt : meta) : xres (list (list Z)) :=
  let$ _ := compute_flowix46 e lin m mt in
  let$ pl := plan46 (y_mtu e) (y_lim e) (error4 m mt) (df4 m 0) (fragmented4 m 0)
               (Skb (Z.of_nat (length m)) (Z.of_nat lin) (y_flist e) (y_gso e)) (Z.of_nat (payoff mt))
               (Z.of_nat (payoff mt - l4off mt)) in
  match pl with
  | FAST => XOk [allocate_fast e m mt]
  | SLOW mpl => XOk (allocate_slow (y_fresh e) mpl (skipn (l4off mt) m))
  end.

(** xlat_l4_function with ttp46_tcp, ttp46_udp, and ttp46_icmp of a message which is
    no error. The segment is at [up] of [m]; [first :: next] is what the outgoing
    packets carry of it. *)
Definition ttp46_l4 (e : env46) (ports : option (Z * Z)) (src4 dst4 src6 dst6 : Z) (lin : nat) (m : list Z) (h : nat)
    (p : proto) (up l4 : nat) (first : list Z) (next : list (list Z)) : xres (list (list Z)) :=
  match p with
  | TCP =>
      let$ _ := of_res (direct lin up (Nat.max 20 l4)) in
      XOk (ttp46_tcp (y_le e) (y_sum e) ports src4 dst4 src6 dst6 (put 0 (firstn (Nat.max 20 l4) (skipn up m)) first) next)
  | UDP =>
      let$ _ := of_res (direct lin up 8) in
      match ttp46_udp (y_le e) (y_sum e) (match y_ports e with Some _ => true | None => false end) (mf4 m h) (y_amend e)
              ports src4 dst4 src6 dst6 (put 0 (firstn 8 (skipn up m)) first) next with
      | Some r => XOk r
      | None => XDrop J46_UDP_CSUM0
      end
  | ICMP =>
      let$ _ := of_res (direct lin up 8) in
      let type := byte m up in
      let$ _ := xlat46_icmp_type type (byte m (up + 1)) in
      if (type =? 8) || (type =? 0)
      then XOk (put 0 (firstn 8 (echo46 (y_le e) src6 dst6 (port_id (y_ports e)) (skipn up m))) first :: next)
      else nested
  | OTHER => XOk (first :: next)
  end.

(** ttpcomm_translate_inner_packet and src/mod/common/rfc7915/common.c:77-94 move_pointers4. The inner packet is at
    [q] of [m], the outgoing one at [qo] of [out], of which [lino] octets are in the
    linear area. [depth] is for errors inside of errors: pkt_init_ipv4() does not
    refuse them. *)
Fixpoint inner46 (depth : nat) (e : env46) (lin : nat) (m : list Z) (q : nat) (lino qo : nat) (out : list Z) : xres (list Z) :=
  match depth with
  | O => nested
  | S depth =>
      let$ _ := of_res (direct lin q 20) in
      let up := (q + ip_hlen m q)%nat in
      let$ pl := inner_l4 lin m (byte m (q + 9)) up in
      let (p, l4) := (pl : proto * nat) in
      let l3 := l3_len46 m q in
      let$ _ := of_res (direct lino qo l3) in
      let$ inn := ttp46_ipv6_internal (y_reset e) (y_hairpin e) (y_src' e) (y_dst' e) m q
                    (Z.of_nat (ip_hlen m q + l4)) (Z.of_nat (l3 + l4)) (skipn qo out) in
      let out := firstn qo out ++ inn in
      let uo := (qo + l3)%nat in
      let$ _ := of_res (direct lino uo l4) in
      if match p with ICMP => is_icmp4_error (byte m up) | _ => false end then
        let$ _ := of_res (direct lin up 8) in
        let$ h := icmp46_header None (y_plateaus e) (y_inmtu e) (Some (y_mtu e)) (be16 m (up + 8 + 2)) (firstn 8 (skipn up m))
                    (firstn 8 (skipn uo out)) in
        if negb (validate_icmp4_csum (y_le e) (y_sum e) (skipn up m)) then XDrop J46_ICMP_CSUM
        else let$ _ := inner46 depth e lin m (up + 8) lino (uo + 8) (put uo h out) in nested
      else
        let$ r := ttp46_l4 e (rev_ports (y_ports e)) (be32 m (q + 12)) (be32 m (q + 16)) (y_src' e) (y_dst' e) lin m q p up l4
                    (skipn uo out) [] in
        XOk (firstn uo out ++ concat r)
  end.

(** src/mod/common/rfc7915/4to6.c:1255-1282 post_icmp6error. The outgoing linear area is the incoming one, less what
    was pulled, plus what was pushed. *)
Definition post_icmp6error (e : env46) (lin : nat) (m : list Z) (mt : meta) (out : list Z) : xres (list Z) :=
  if negb (validate_icmp4_csum (y_le e) (y_sum e) (skipn (l4off mt) m)) then XDrop J46_ICMP_CSUM
  else
    let lino := (length out - (length m - lin))%nat in
    let$ out := inner46 3 e lin m (payoff mt) lino 48 out in
    let$ out := handle_icmp6_extension (l4off mt) m out in
    let out := trim_1280 out in
    XOk (firstn 40 out ++ compute_icmp6_csum (y_le e) (y_src e) (y_dst e) (skipn 40 out)).

(** src/mod/common/rfc7915/4to6.c:1288-1338 ttp46_icmp, of an error *)
Definition ttp46_icmp_error (e : env46) (lin : nat) (m : list Z) (mt : meta) (out : list Z) : xres (list Z) :=
  let up := l4off mt in
  let$ _ := of_res (direct lin up 8) in
  let$ h := icmp46_header (port_id (y_ports e)) (y_plateaus e) (y_inmtu e) (Some (y_mtu e)) (be16 m (payoff mt + 2))
              (firstn 8 (skipn up m)) (firstn 8 (skipn 40 out)) in
  post_icmp6error e lin m mt (put 40 h out).

(** src/mod/common/rfc7915/core.c:55-104 translating_the_packet, of an IPv4 packet which pkt_init_ipv4() accepted *)
Definition xlat46 (e : env46) (lin : nat) (m : list Z) (mt : meta) : xres (list (list Z)) :=
  let l4 := (payoff mt - l4off mt)%nat in
  let$ outs := ttp46_alloc_skb e lin m mt in
  let$ outs := ttp46_ipv6_external (y_fuel e) (y_reset e) (y_hairpin e) (y_src e) (y_dst e) lin m outs in
  match outs with
  | [] => XUB
  | out :: next =>
      if first4 m 0 then
        if error4 m mt then let$ out := ttp46_icmp_error e lin m mt out in XOk (out :: next)
        else
          let l3 := match next with [] => l3_len46 m 0 | _ => 48%nat end in
          let$ r := ttp46_l4 e (y_ports e) (be32 m 12) (be32 m 16) (y_src e) (y_dst e) lin m 0 (l4p mt) (l4off mt) l4
                      (skipn l3 out) (map (skipn 48) next) in
          match r with
          | [] => XUB
          | seg :: _ => XOk ((firstn l3 out ++ seg) :: next)
          end
      else XOk (out :: next)
  end.
