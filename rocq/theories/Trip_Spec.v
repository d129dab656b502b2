(** What becomes of an IPv4 packet which is translated to IPv6 and then back to
    IPv4 by another translator (464XLAT, dual translation). *)
Require Import Verif.Base Verif.Csum_Spec Verif.Pkt_Spec Verif.Hdr_Spec Verif.Xlat_Spec.

Section series4.
Context (tos ttl src dst proto id : Z) (more : Prop).
(** An IPv4 fragment, without options or Don't Fragment *)
Definition fragment4 (o : list Z) (off : Z) (mf : Prop) (d : list Z) : Prop :=
  ipv4_header o 0 tos (Z.of_nat (length o)) id False mf off ttl proto src dst /\ skipn 20 o = d.
(** Together they carry [data], whose place in the datagram is [off]. *)
Inductive series4 : Z -> list Z -> list (list Z) -> Prop :=
| s4_last off o d : fragment4 o off more d -> series4 off d [o]
| s4_more off o d d' os : fragment4 o off True d -> series4 (off + Z.of_nat (length d)) d' os -> series4 off (d ++ d') (o :: os).
End series4.

(** In one packet, whose identification may be any, or in fragments. *)
Definition sent4 (tos ttl src dst proto id : Z) (more : Prop) (off : Z) (seg : list Z) (outs : list (list Z)) : Prop :=
  (exists o id' df, outs = [o] /\ off = 0 /\ ~ more /\ ipv4_header o 0 tos (Z.of_nat (length o)) id' df False 0 ttl proto src dst /\ skipn 20 o = seg)
  \/ series4 tos ttl src dst proto id more off seg outs.

(** [seg'] is [seg] but for addresses, ports or identifier, and checksum, which is
    right if it was right (or, in UDP, not there). *)
Definition same_segment (ports : option (Z * Z)) (s d s' d' p : Z) (seg seg' : list Z) : Prop :=
  let checksum := forall rest, datagram (seg ++ rest) -> (ok4 s' d' p (seg' ++ rest) <-> ok4 s d p (seg ++ rest)) in
  (p = 6 -> same_but 16 ports seg seg' /\ checksum)
  /\ (p = 17 -> same_but 6 ports seg seg' /\ word seg' 6 <> 0 /\ (word seg 6 <> 0 -> checksum))
  /\ (p = 1 -> oct seg' 0 = oct seg 0 /\ oct seg' 1 = 0 /\ same_echo (option_map fst ports) seg seg'
        /\ ((exists i, oct seg i <> 0) -> (exists i, oct seg' i <> 0) -> (checks seg' <-> checks seg)))
  /\ (p <> 6 -> p <> 17 -> p <> 1 -> seg' = seg).
(** Both translators may change ports: the second one has the last word. *)
Definition last_ports (p1 p2 : option (Z * Z)) : option (Z * Z) := match p2 with Some _ => p2 | None => p1 end.
