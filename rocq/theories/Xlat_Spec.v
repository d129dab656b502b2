(** What RFC 7915 asks of the translation of a whole packet. *)
Require Import Verif.Base Verif.Csum_Spec Verif.Pkt_Spec Verif.Hdr_Spec.

(** Echo messages, before and after; [id] is the new identifier, if any. *)
Definition same_echo (id : option Z) (msg out : list Z) : Prop :=
  length out = length msg
  /\ word out 4 = match id with Some i => i | None => word msg 4 end
  /\ forall i, (6 <= i)%nat -> oct out i = oct msg i.

(** [seg'] is the IPv4 form of what the IPv6 packet carries, [seg], which begins
    with the header of protocol [p]. The checksum is right if it was right before
    (or left to be computed, [partial]): of the datagram it is the beginning of. *)
Definition segment64 (partial : Prop) (ports : option (Z * Z)) (s6 d6 s4 d4 p : Z) (seg seg' : list Z) : Prop :=
  let checksum := (partial -> ok4 s4 d4 p seg') /\
    (~ partial -> forall rest, datagram (seg ++ rest) -> (ok4 s4 d4 p (seg' ++ rest) <-> ok6 s6 d6 p (seg ++ rest))) in
  (p = 6 -> same_but 16 ports seg seg' /\ checksum)
  /\ (p = 17 -> same_but 6 ports seg seg' /\ checksum /\ word seg' 6 <> 0)
  /\ (p = 58 -> becomes rules64 (oct seg 0) (oct seg 1) (oct seg' 0) (oct seg' 1)
        /\ same_echo (option_map fst ports) seg seg' /\ ((exists i, oct seg' i <> 0) -> (checks seg' <-> ok6 s6 d6 58 seg)))
  /\ (p <> 6 -> p <> 17 -> p <> 58 -> seg' = seg).

(** The other way. [seg] is all the IPv4 packet carries, [seg'] all the IPv6
    packet or its fragments carry. UDP's checksum may be missing ([zero]). *)
Definition segment46 (partial : Prop) (ports : option (Z * Z)) (s4 d4 s6 d6 p : Z) (seg seg' : list Z) : Prop :=
  let checksum := (partial -> ok6 s6 d6 p seg') /\
    (~ partial -> forall rest, datagram (seg ++ rest) -> (ok6 s6 d6 p (seg' ++ rest) <-> ok4 s4 d4 p (seg ++ rest))) in
  (p = 6 -> same_but 16 ports seg seg' /\ checksum)
  /\ (p = 17 -> same_but 6 ports seg seg' /\ (word seg 6 <> 0 -> checksum))
  /\ (p = 1 -> becomes rules46 (oct seg 0) (oct seg 1) (oct seg' 0) (oct seg' 1)
        /\ same_echo (option_map fst ports) seg seg' /\ ((exists i, oct seg i <> 0) -> (ok6 s6 d6 58 seg' <-> checks seg)))
  /\ (p <> 6 -> p <> 17 -> p <> 1 -> seg' = seg).

(** The traffic class or type of service *)
Definition tos_of (reset : bool) (new old : Z) : Z := if reset then new else old.

(** How a datagram, or the part of it at [off], goes out on the IPv6 side: in one
    packet, in one packet which is a fragment without data, or in fragments. *)
Definition sent6 (tc hops src dst nh id : Z) (more : Prop) (off : Z) (seg' : list Z) (outs : list (list Z)) : Prop :=
  (exists o, outs = [o] /\ off = 0 /\ ~ more /\ ipv6_header o 0 tc (Z.of_nat (length o) - 40) nh hops src dst /\ skipn 40 o = seg')
  \/ (exists o, outs = [o] /\ (off <> 0 \/ more) /\ length o = 48%nat /\ seg' = [] /\ ipv6_header o 0 tc 8 44 hops src dst /\ fragment_header o 40 nh off more id)
  \/ series tc hops src dst nh id more off seg' outs.
