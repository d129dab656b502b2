(** The stateless translator on octets: from the packet the kernel hands over to the
    packets it is given to send.
    Sources: src/mod/common/core.c, src/mod/common/rfc7915/6to4.c,
    src/mod/common/rfc7915/4to6.c, src/mod/common/rfc7915/common.c,
    src/mod/common/steps/compute_outgoing_tuple_siit.c,
    src/mod/common/steps/handling_hairpinning_siit.c; the addresses are those of
    Siit_Model, the packets those of Pkt_Model and Xlat_Model, which are put together here.
    Simplified: validate_xlator() and sendpkt_send() are those of Fate_Model; memory
    for the outgoing packets is there. *)
Require Import Verif.Base Verif.Addr_Model Verif.Rtrie_Model Verif.Pool4_Model Verif.Eam_Model Verif.Deny_Model Verif.Siit_Model Verif.Nat64_Model
  Verif.Pkt_Model Verif.Csum_Model Verif.Hdr_Model Verif.Xlat_Model Verif.E2e_Model.

(** The addresses and hop limit of the IPv6 header at [q] (struct ipv6hdr), and of
    the IPv4 header at [q] (struct iphdr) *)
Definition leg6_at (m : list Z) (q : nat) (err : bool) : leg := Leg (be128 m (q + 8)) (be128 m (q + 24)) err (byte m (q + 7)).
Definition leg4_at (m : list Z) (q : nat) (err : bool) : leg := Leg (be32 m (q + 12)) (be32 m (q + 16)) err (byte m (q + 8)).

(** What becomes of the packet: the kernel is given this to send, or it does not
    parse, or its addresses do not translate or there is no route ([s] is
    counted, [drop] tells a drop from a packet left to the kernel), or the rest
    does not translate. *)
Inductive sresult :=
| SPacket4 (o : list Z) | SPackets6 (os : list (list Z)) | SUnparsed (w : why) | SRefused (drop : bool) (s : option stat) | SFailed (x : xres unit).

(** src/mod/common/rfc7915/common.c:30-60 move_pointers_in, 77-94 move_pointers4 and
    96-111 move_pointers6, then src/mod/common/packet.h:393-403
    pkt_is_icmp6_error and pkt_is_icmp4_error: of the packet inside, whose
    layer 4 header of protocol [ty] is at [up] *)
Definition inner_error (is_error : Z -> bool) (lin : nat) (m : list Z) (ty : Z) (up : nat) : res bool :=
  let! _ := (if ty =? 6 then direct lin (up + 12) 1 else Ok tt) in
  if (ty =? 1) || (ty =? 58) then let! _ := direct lin up 1 in Ok (is_error (byte m up)) else Ok false.

(** ** IPv6 to IPv4 *)

(** src/mod/common/rfc7915/6to4.c:223-232, in compute_flowix64, and 129-193
    xlat64_icmp_type: whether there is a packet inside whose addresses are needed. (The
    ports, 82-128, are read in Xlat_Model.) *)
Definition has_inner64 (lin : nat) (m : list Z) (mt : meta) : xres bool :=
  let$ pr := xlat_proto lin m 0 in
  if pr =? 1 then
    let$ _ := of_res (direct lin (l4off mt) 2) in
    let type := byte m (l4off mt) in
    let$ _ := xlat64_icmp_type type (byte m (l4off mt + 1)) in
    XOk (negb ((type =? 128) || (type =? 129)))
  else XOk false.

(** The addresses for the headers and whether it is a hairpin, or why there are
    none *)
Inductive addressing := Halt (r : sresult) | Found (r : addrs) (hairpin : bool).

(** src/mod/common/rfc7915/6to4.c:31-49 xlat64_external_addresses, 51-80
    xlat64_internal_addresses and 196-235 compute_flowix64, of a stateless translator *)
Definition addresses64 (st : siit) (u : luck) (lin : nat) (m : list Z) (mt : meta) : res addressing :=
  let! o := translate_addrs64_siit st u false (leg6_at m 0 (error6 m mt)) false in
  match o with
  | Siit_Model.Untranslatable s => Ok (Halt (SRefused false (Some s)))
  | Siit_Model.Drop s => Ok (Halt (SRefused true (Some s)))
  | Siit_Model.Continue (src, dst, h) =>
    match has_inner64 lin m mt with
    | XUB => UB
    | XOk false => Ok (Found (Addrs src dst None) h)
    | XOk true =>
      let! t := hdr_iterator_last lin m (payoff mt) in
      let! e := inner_error is_icmp6_error lin m (fst t) (snd t) in
      let! _ := direct lin (payoff mt) 40 in
      let! i := translate_addrs64_siit st u true (leg6_at m (payoff mt) e) h in
      match i with
      | Siit_Model.Untranslatable s => Ok (Halt (SRefused false (Some s)))
      | Siit_Model.Drop s => Ok (Halt (SRefused true (Some s)))
      | Siit_Model.Continue (isrc, idst, h') => Ok (Found (Addrs src dst (Some (isrc, idst))) h')
      end
    | x => Ok (Halt (SFailed (failed x)))
    end
  end.

(** [w] is everything else, which the configuration and the kernel decide. There is
    no route, and so no MTU, when hairpinning (src/mod/common/rfc7915/6to4.c:310-317). *)
Definition senv64 (w : env64) (r : addrs) (hairpin : bool) : env64 :=
  let i := match a_inner r with Some i => i | None => (0, 0) end in
  Env64 (x_le w) (x_tos w) (x_id w) (x_id' w) (a_src r) (a_dst r) (fst i) (snd i) None
    (if hairpin then None else x_mtu w) (x_inmtu w) (x_sum w) (x_flist w) (x_gso w).

(** ** IPv4 to IPv6 *)

(** src/mod/common/rfc7915/4to6.c:236-244, in compute_flowix46, and 137-218
    xlat46_icmp_type *)
Definition has_inner46 (lin : nat) (m : list Z) (mt : meta) : xres bool :=
  if xlat_nexthdr (byte m 9) =? 58 then
    let$ _ := of_res (direct lin (l4off mt) 2) in
    let type := byte m (l4off mt) in
    let$ _ := xlat46_icmp_type type (byte m (l4off mt + 1)) in
    XOk (negb ((type =? 8) || (type =? 0)))
  else XOk false.

(** src/mod/common/rfc7915/4to6.c:38-56 xlat46_external_addresses, 58-87
    xlat46_internal_addresses and 220-247 compute_flowix46; [hp] is state->is_hairpin.
    src/mod/common/steps/compute_outgoing_tuple_siit.c:86-97 disable_src_eam reads the
    destination of the packet inside of an error through a pointer. *)
Definition addresses46 (st : siit) (u : luck) (hp : bool) (lin : nat) (m : list Z) (mt : meta) : res addressing :=
  let err := error4 m mt in
  let! _ := (if err && ((s_mode st =? EHM_SIMPLE) || hp) then direct lin (payoff mt + 16) 4 else Ok tt) in
  let! o := translate_addrs46_siit st u false (leg4_at m 0 err) (be32 m (payoff mt + 16)) hp in
  match o with
  | Siit_Model.Untranslatable s => Ok (Halt (SRefused false (Some s)))
  | Siit_Model.Drop s => Ok (Halt (SRefused true (Some s)))
  | Siit_Model.Continue (src, dst) =>
    match has_inner46 lin m mt with
    | XUB => UB
    | XOk false => Ok (Found (Addrs src dst None) hp)
    | XOk true =>
      let q := payoff mt in
      let! _ := direct lin q 20 in
      let! e := inner_error is_icmp4_error lin m (byte m (q + 9)) (q + ip_hlen m q) in
      let! i := translate_addrs46_siit st u true (leg4_at m q e) 0 hp in
      match i with
      | Siit_Model.Untranslatable s => Ok (Halt (SRefused false (Some s)))
      | Siit_Model.Drop s => Ok (Halt (SRefused true (Some s)))
      | Siit_Model.Continue (isrc, idst) => Ok (Found (Addrs src dst (Some (isrc, idst))) hp)
      end
    | x => Ok (Halt (SFailed (failed x)))
    end
  end.

Definition senv46 (w : env46) (hp : bool) (sum : summed) (r : addrs) : env46 :=
  let i := match a_inner r with Some i => i | None => (0, 0) end in
  Env46 (y_le w) (y_reset w) hp (y_amend w) (a_src r) (a_dst r) (fst i) (snd i) None
    (y_mtu w) (y_lim w) (y_inmtu w) (y_plateaus w) sum (y_flist w) (y_gso w) (y_head w) (y_fresh w) (y_fuel w).

(** src/mod/common/rfc7915/core.c:55-104 translating_the_packet, of an IPv4 packet, and
    src/mod/common/rfc7915/4to6.c:249-287 predict_route46 *)
Definition translating46 (st : siit) (u : luck) (w : env46) (hp : bool) (sum : summed) (lin : nat) (m : list Z) (mt : meta) : res sresult :=
  let! a := addresses46 st u hp lin m mt in
  match a with
  | Halt r => Ok r
  | Found r _ =>
    match predict_route46 u (Packet (leg4_at m 0 (error4 m mt)) None) r with
    | Siit_Model.Untranslatable s => Ok (SRefused false (Some s))
    | Siit_Model.Drop s => Ok (SRefused true (Some s))
    | Siit_Model.Continue r =>
      match xlat46 (senv46 w hp sum r) lin m mt with
      | XUB => UB
      | XOk outs => Ok (SPackets6 outs)
      | x => Ok (SFailed (failed x))
      end
    end
  end.

(** ** The core *)

(** src/mod/common/core.c:87-118 core_4to6 and 28-69 core_common *)
Definition siit4 (st : siit) (u : luck) (w : env46) (mem : bool) (m : list Z) (lin : nat) : res sresult :=
  match pkt_init_ipv4 mem m lin with
  | BadFuel => NoFuel
  | Bad b => Ok (SUnparsed b)
  | Good (mt, l) => translating46 st u w false (y_sum w) l m mt
  end.

(** src/mod/common/core.c:136-167 core_6to4, 28-69 core_common,
    src/mod/common/rfc7915/6to4.c:299-334 __predict_route64, and
    src/mod/common/steps/handling_hairpinning_siit.c:13-36 handling_hairpinning_siit. [u2] and [w2] are
    for the second translation of a hairpin packet, [nm] is whether there is memory
    for its struct xlation. *)
Definition siit6 (st : siit) (u u2 : luck) (nm : bool) (w : env64) (w2 : env46) (mem : bool) (m : list Z) (lin : nat) : res sresult :=
  match pkt_init_ipv6 mem m lin with
  | BadFuel => NoFuel
  | Bad b => Ok (SUnparsed b)
  | Good (mt, l) =>
    let! a := addresses64 st u l m mt in
    match a with
    | Halt r => Ok r
    | Found r h =>
      match predict_route64 u r h with
      | Siit_Model.Untranslatable s => Ok (SRefused false (Some s))
      | Siit_Model.Drop s => Ok (SRefused true (Some s))
      | Siit_Model.Continue r =>
        match xlat64 (senv64 w r h) l m mt with
        | XUB => UB
        | XOk out =>
          if h then
            if nm then translating46 st u2 w2 true (sum_out m mt (x_sum w)) (length out - (length m - l)) out (meta_out mt)
            else Ok (SRefused true None)
          else Ok (SPacket4 out)
        | x => Ok (SFailed (failed x))
        end
      end
    end
  end.
