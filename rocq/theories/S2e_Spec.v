(** What is expected of the stateless translator, from octets to octets: the
    addresses are those of Siit_Spec, the rest is Xlat_Spec. *)
Require Import Verif.Base Verif.Addr_Model Verif.Addr_Spec Verif.Eam_Model Verif.Eam_Spec Verif.Rtrie_Model Verif.Siit_Model Verif.Siit_Spec.
Require Import Verif.Csum_Model Verif.Csum_Spec Verif.Pkt_Spec Verif.Hdr_Model Verif.Hdr_Spec Verif.Xlat_Model Verif.Xlat_Spec Verif.Xlat_Properties.

(** docs/en/usr-flags-global.md, eam-hairpin-mode, "intrinsic": a packet from IPv6
    for somebody who has a mapping, but is called by their pool6 address, turns
    around inside of the translator. [d6] is the destination, [d4] what it stands for. *)
Definition turns (mode : Z) (c : site) (d6 d4 : Z) : Prop :=
  mode = EHM_INTRINSIC /\ (exists p, stands_for c d6 d4 (ByPool6 p)) /\ exists e, In e (t_tbl c) /\ in4 (e_p4 e) d4.

(** "simple": the sources of packets from IPv4 which are no ICMP errors do without the mappings. *)
Definition src46 (mode : Z) (c : site) (a4 a6 : Z) : Prop :=
  xl46 (if mode =? EHM_SIMPLE then unmapped c else c) a4 a6.

(** The IPv6 packet [m], which is no ICMP error, became the IPv4 packet [o] from [s4]
    to [d4] (see C74). [w]: what the configuration and the kernel decide; [mtu] is that
    of the route, [linear] is whether the kernel keeps [m] in one piece *)
Definition became4 (w : env64) (mtu : option Z) (linear : Prop) (m : list Z) (hs : list (Z * nat)) (p : Z) (up : nat) (s4 d4 : Z) (o : list Z) : Prop :=
  let seg := skipn up m in
  1 < oct m 7 /\ routing_done m hs /\ length o = (20 + length seg)%nat /\ Forall is_u8 o
  /\ (linear -> forall t, mtu = Some t -> Z.of_nat (length o) <= t)
  /\ (exists big : Prop, (big <-> 1260 < Z.of_nat (length o))
      /\ ipv4_header o 0 (kept (dscp_only (x_tos w)) (tos_of (reset_tos (x_tos w)) (new_tos (x_tos w)) (tclass m 0)))
       (Z.of_nat (length o)) (id64 m hs (x_id w)) (df64 hs big) (more64 m hs) (off64 m hs) (oct m 7 - 1) (proto64 p) s4 d4)
  /\ (first_piece m hs -> segment64 (x_sum w = CS_PARTIAL) None (field m 8 16) (field m 24 16) s4 d4 p seg (skipn 20 o))
  /\ (~ first_piece m hs -> skipn 20 o = seg).
(** Why it may not: its hops are used up, it has a routing header, it is too big, it
    is a kind of ICMP which IPv4 does not have. *)
Definition excuse64 (mtu : option Z) (m : list Z) (hs : list (Z * nat)) (p : Z) (up : nat) (x : xres unit) : Prop :=
  (x = XIcmp J64_TTL E_TTL 0 /\ oct m 7 <= 1)
  \/ (exists q, x = XIcmp J64_SEGMENTS_LEFT E_HDR_FIELD (Z.of_nat (q + 3)) /\ where_is 43 hs = Some q /\ oct m (q + 3) <> 0)
  \/ (exists t, mtu = Some t /\ t < 20 + Z.of_nat (length m - up) /\ (x = XIcmp J_PKT_TOO_BIG E_FRAG_NEEDED (Z.max 1280 (t + 20)) /\ first_piece m hs \/ x = XDrop J_PKT_TOO_BIG))
  \/ (x = XDrop J_UNKNOWN_ICMP6_TYPE /\ p = 58 /\ forall t c, ~ becomes rules64 (oct m up) (oct m (up + 1)) t c).

(** The IPv4 packet [m], which is no ICMP error, became [outs], from [s6] to [d6] (see C75). *)
Definition became6 (w : env46) (partial : Prop) (hops : Z) (m : list Z) (up : nat) (s6 d6 : Z) (outs : list (list Z)) : Prop :=
  let seg := skipn up m in
  (forall o, at_opt m up 20 o -> source_route m o -> exists o', (o' <= o)%nat /\ at_opt m up 20 o' /\ source_route m o' /\ ~ unexpired m o')
  /\ Forall (Forall is_u8) outs
  /\ Forall (fun o => Z.of_nat (length o) <= y_mtu w /\ (~ df_set m 0 -> Z.of_nat (length o) <= y_lim w)) outs
  /\ (df_set m 0 -> length outs = 1%nat)
  /\ exists seg', sent6 (tos_of (y_reset w) 0 (oct m 1)) hops s6 d6 (proto46 (oct m 9)) (word m 4) (fr4_more m 0) (fr4_offset m 0) seg' outs
     /\ (fr4_offset m 0 = 0 -> segment46 partial None (field m 12 4) (field m 16 4) s6 d6 (oct m 9) seg seg'
          /\ (oct m 9 = 17 -> word seg 6 = 0 -> length outs = 1%nat -> ok6 s6 d6 17 seg'))
     /\ (fr4_offset m 0 <> 0 -> seg' = seg).
Definition excuse46 (w : env46) (turned : bool) (m : list Z) (up : nat) (x : xres unit) : Prop :=
  (x = XIcmp J46_TTL E_TTL 0 /\ turned = false /\ oct m 8 <= 1)
  \/ (x = XIcmp J46_SRC_ROUTE E_SRC_ROUTE 0 /\ exists o, at_opt m up 20 o /\ source_route m o /\ unexpired m o)
  \/ (exists i, x = XIcmp J_PKT_TOO_BIG E_FRAG_NEEDED i /\ df_set m 0 /\ (y_mtu w < 4294967296 -> i = y_mtu w - 20)
      /\ y_mtu w < 48 + Z.of_nat (length m - up) /\ (fr4_offset m 0 = 0 -> ~ fr4_more m 0 -> y_mtu w < 40 + Z.of_nat (length m - up)))
  \/ (x = XDrop J_UNKNOWN_ICMP4_TYPE /\ oct m 9 = 1 /\ forall t c, ~ becomes rules46 (oct m up) (oct m (up + 1)) t c)
  \/ (x = XDrop J46_BAD_MTU /\ Z.min (y_mtu w) (y_lim w) < 1280)
  \/ (x = XDrop J46_UDP_CSUM0 /\ oct m 9 = 17 /\ word m (up + 6) = 0 /\ (fr4_more m 0 \/ y_amend w = false)).
