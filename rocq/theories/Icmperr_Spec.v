(** What RFC 7915 asks of the translation of a whole ICMP error. *)
Require Import Verif.Base Verif.Csum_Spec Verif.Pkt_Spec Verif.Hdr_Spec Verif.Ext_Spec Verif.Xlat_Spec.

(** ** IPv6 to IPv4 *)

(** The ICMPv6 message [h] and the ICMPv4 message [h'], besides type, code,
    checksum and length attribute. The MTU is that of RFC 7915 section 5.2, if it
    fits in 16 bits and the others make sense. *)
Definition rest64 (inmtu mtu : option Z) (h h' : list Z) : Prop :=
  (In (oct h 0) [1; 3] -> oct h' 4 = 0 /\ word h' 6 = 0)
  /\ (oct h 0 = 2 -> word h' 4 = 0
      /\ forall x, 20 <= rest h -> (forall i, inmtu = Some i -> 20 <= i < 4294967296) -> lowest (bounds4 (rest h) inmtu mtu) x -> x < 65536 -> word h' 6 = x)
  /\ (oct h 0 = 4 -> oct h 1 = 0 -> points pointers64 (rest h) (oct h' 4) /\ oct h' 5 = 0 /\ word h' 6 = 0)
  /\ (oct h 0 = 4 -> oct h 1 = 1 -> rest h' = 0).

(** [inn] is the IPv4 form of the (maybe cut short) packet inside of the error, at
    [q] of [m], whose headers are [hs'], and whose upper layer [p'] is at [up'].
    Its total length is that of the whole packet. *)
Definition inner_packet64 (ports : option (Z * Z)) (tos id s4 d4 : Z) (m : list Z) (q : nat) (hs' : list (Z * nat)) (p' : Z) (up' : nat) (inn : list Z) : Prop :=
  let len := (20 + (40 + word m (q + 4) - Z.of_nat (up' - q))) mod 65536 in
  length inn = (20 + (length m - up'))%nat /\ Forall is_u8 inn
  /\ ipv4_header inn 0 tos len (id64 m hs' id) (df64 hs' (1260 < len)) (more64 m hs') (off64 m hs') (oct m (q + 7)) (proto64 p') s4 d4
  /\ segment64 False ports (field m (q + 8) 16) (field m (q + 24) 16) s4 d4 p' (skipn up' m) (skipn 20 inn).

(** The length attribute of the ICMPv6 error at [up], in octets. Only Destination
    Unreachable and Time Exceeded have it (RFC 4884 section 4). *)
Definition attr6 (m : list Z) (up : nat) : Z := if (oct m up =? 1) || (oct m up =? 3) then 8 * oct m (up + 4) else 0.

(** The ICMPv4 error [o] carries as much of [inn] as it can, and the extension of
    the ICMPv6 error, at [up] of [m], if it is not too long. *)
Definition carried64 (m : list Z) (up up' : nat) (inn o : list Z) : Prop :=
  let ipl := attr6 m up in
  let iel := Z.of_nat (length m) - Z.of_nat (up + 8) - ipl in
  (ipl = 0 \/ iel = 0 -> (In (oct m up) [1; 3] -> oct o 25 = 0) /\ skipn 28 o = firstn (576 - 28) inn)
  /\ (0 < ipl -> 0 < iel ->
      let d := firstn (Z.to_nat (20 + ipl - Z.of_nat (up' - (up + 8)))) inn in
      (iel <= 576 - 28 - 128 ->
         Z.min (28 + Z.of_nat (length inn)) 576 - 4 < Z.of_nat (length o)
         /\ exists d', cut_padded d d' /\ extended 4 (oct o 25) 28 o d' (skipn (up + 8 + Z.to_nat ipl) m))
      /\ (576 - 28 - 128 < iel -> oct o 25 = 0 /\ skipn 28 o = firstn (576 - 28) d)).

(** ** IPv4 to IPv6 *)

(** The ICMPv4 message [h] and the ICMPv6 message [h'], besides type, code,
    checksum and length attribute. [tl] is the total length of the packet inside.
    The MTU is that of RFC 7915 section 4.2, at least 1280. *)
Definition rest46 (plateaus : list Z) (inmtu : option Z) (mtu tl : Z) (h h' : list Z) : Prop :=
  (oct h 0 = 11 \/ oct h 0 = 3 /\ oct h 1 <> 2 /\ oct h 1 <> 4 -> oct h' 5 = 0 /\ word h' 6 = 0)
  /\ (oct h 0 = 3 -> oct h 1 = 2 -> rest h' = 6)
  /\ (oct h 0 = 3 -> oct h 1 = 4 -> forall i adv x, inmtu = Some i -> 0 <= i <= 4294967275 -> 0 <= mtu < 4294967296 -> descending plateaus -> Forall is_u16 plateaus ->
      (word h 6 <> 0 -> adv = word h 6) -> (word h 6 = 0 -> plateau_below plateaus tl adv \/ (forall y, In y plateaus -> tl <= y) /\ adv = 0) ->
      lowest (bounds6 adv (Some i) (Some mtu)) x -> rest h' = Z.max 1280 x)
  /\ (oct h 0 = 12 -> points pointers46 (oct h 4) (rest h')).

(** [inn] is the IPv6 form of the (maybe cut short) packet inside of the error, at
    [q] of [m]. It may be the first fragment of a datagram. *)
Definition inner_packet46 (ports : option (Z * Z)) (tc s6 d6 : Z) (m : list Z) (q : nat) (l3' : nat) (inn : list Z) : Prop :=
  let p' := oct m (q + 9) in
  let up' := (q + ihl m q)%nat in
  let len := (word m (q + 2) - Z.of_nat (ihl m q) + (Z.of_nat l3' - 40)) mod 65536 in
  length inn = (l3' + (length m - up'))%nat /\ Forall is_u8 inn
  /\ (~ fr4_more m q -> l3' = 40%nat /\ ipv6_header inn 0 tc len (proto46 p') (oct m (q + 8)) s6 d6)
  /\ (fr4_more m q -> l3' = 48%nat /\ ipv6_header inn 0 tc len 44 (oct m (q + 8)) s6 d6 /\ fragment_header inn 40 (proto46 p') 0 True (word m (q + 4)))
  /\ segment46 False ports (field m (q + 12) 4) (field m (q + 16) 4) s6 d6 p' (skipn up' m) (skipn l3' inn).

(** The length attribute of the ICMPv4 error at [up], in octets *)
Definition attr4 (m : list Z) (up : nat) : Z := 4 * oct m (up + 5).

(** The ICMPv6 error [o] carries as much of [inn] as it can, and the extension of
    the ICMPv4 error, if it is not too long and [o] is of a type which has one. *)
Definition carried46 (m : list Z) (up : nat) (l3 l3' : nat) (inn o : list Z) : Prop :=
  let ipl := attr4 m up in
  let iel := Z.of_nat (length m) - Z.of_nat (up + 8) - ipl in
  (ipl = 0 \/ iel = 0 -> oct o 44 = 0 /\ skipn 48 o = firstn (1280 - 48) inn)
  /\ (0 < ipl -> 0 < iel ->
      let d := firstn (Z.to_nat (Z.of_nat l3' + ipl - Z.of_nat l3)) inn in
      (In (oct o 40) [1; 3] -> iel <= 1280 - 48 - 128 ->
         Z.min (48 + Z.of_nat (length inn)) 1280 - 8 < Z.of_nat (length o)
         /\ exists d', cut_padded d d' /\ extended 8 (oct o 44) 48 o d' (skipn (up + 8 + Z.to_nat ipl) m))
      /\ (~ In (oct o 40) [1; 3] \/ 1280 - 48 - 128 < iel -> oct o 44 = 0 /\ skipn 48 o = firstn (1280 - 48) d)).
