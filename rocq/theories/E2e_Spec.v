(** What the claims about the stateful translator, from octets to octets, talk about. *)
Require Import Verif.Base Verif.Addr_Model Verif.Rtrie_Model Verif.Pool4_Model Verif.Fsm_Model Verif.Bib_Model Verif.Bib_Find Verif.Bib_Spec Verif.Nat64_Model
  Verif.Csum_Spec Verif.Pkt_Spec Verif.Hdr_Spec.

(** The two ends of a conversation, as the transport header at [up] tells: ports,
    or the identifier of echo messages. *)
Definition ends (icmp : Z) (echo : list Z) (m : list Z) (p : Z) (up : nat) (pr : proto) (sp dp : Z) : Prop :=
  (p = 6 /\ pr = TCP /\ sp = word m up /\ dp = word m (up + 2))
  \/ (p = 17 /\ pr = UDP /\ sp = word m up /\ dp = word m (up + 2))
  \/ (p = icmp /\ In (oct m up) echo /\ pr = ICMP /\ sp = word m (up + 4) /\ dp = word m (up + 4)).
(** The IPv6 packet [m], whose transport header is at [up] and of type [p], goes
    from [S] to [D] (address and port). *)
Definition talk6 (m : list Z) (p : Z) (up : nat) (pr : proto) (S D : ta) : Prop :=
  fst S = field m 8 16 /\ fst D = field m 24 16 /\ ends 58 [128; 129] m p up pr (snd S) (snd D).
(** The same for IPv4 *)
Definition talk4 (m : list Z) (up : nat) (pr : proto) (S D : ta) : Prop :=
  fst S = field m 12 4 /\ fst D = field m 16 4 /\ ends 1 [8; 0] m (oct m 9) up pr (snd S) (snd D).
(** The same of the packet at [q], inside of an ICMP error *)
Definition about4 (m : list Z) (q : nat) (pr : proto) (S D : ta) : Prop :=
  fst S = field m (q + 12) 4 /\ fst D = field m (q + 16) 4 /\ ends 1 [8; 0] m (oct m (q + 9)) (q + ihl m q) pr (snd S) (snd D).
Definition about6 (m : list Z) (q : nat) (p : Z) (up : nat) (pr : proto) (S D : ta) : Prop :=
  fst S = field m (q + 8) 16 /\ fst D = field m (q + 24) 16 /\ ends 58 [128; 129] m p up pr (snd S) (snd D).
(** The packet at [q] of [m] is a copy of [o], as far as routers do not change it on
    the way (they do TTL, checksum and DSCP) and RFC 792 asks for: 8 octets of data. *)
Definition quotes (m : list Z) (q : nat) (o : list Z) : Prop := forall i, i = 0%nat \/ i = 9%nat \/ (12 <= i < 28)%nat -> oct m (q + i) = oct o i.
(** TCP's SYN flag *)
Definition syn_set (m : list Z) (up : nat) : Prop := (oct m (up + 13) / 2) mod 2 = 1.

(** Addresses and ports are of the C types. *)
Definition typed4 (a : ta) : Prop := is_u32 (fst a) /\ is_u16 (snd a).
Definition typed6 (a : ta) : Prop := is_u128 (fst a) /\ is_u16 (snd a).
Definition typed_table (t : tb) : Prop := forall s6 s4 st, has t s6 s4 st -> typed6 s6 /\ typed4 s4.
Definition typed_db (s : db) : Prop := forall pr, typed_table (get_table s pr).
(** What pool4 offers is an enumeration, of transport addresses. *)
Definition usable4 (g : xconf) (n : env) : Prop := forall pr d,
  mask_domain_find (g_pool4 g) pr (n_mark n) (n_hash n) (n_eph n) (n_route n) (n_kro n) = Ok (Domain d) ->
  exists masks, offers d masks /\ forall a, In a (map fst masks) -> typed4 a.

(** [seg'] is what the IPv6 packet carries, [seg], but for ports or identifier and
    checksum: what two nodes behind the same translator see of each other. *)
Definition segment66 (partial : Prop) (s d : Z) (s6 d6 s6' d6' p : Z) (seg seg' : list Z) : Prop :=
  let checksum := (partial -> ok6 s6' d6' p seg') /\
    (~ partial -> forall rest, datagram (seg ++ rest) -> (ok6 s6' d6' p (seg' ++ rest) <-> ok6 s6 d6 p (seg ++ rest))) in
  (p = 6 -> same_but 16 (Some (s, d)) seg seg' /\ checksum)
  /\ (p = 17 -> same_but 6 (Some (s, d)) seg seg' /\ checksum)
  /\ (p = 58 -> oct seg' 0 = oct seg 0 /\ oct seg' 1 = 0 /\ length seg' = length seg /\ word seg' 4 = s /\ (forall i, (6 <= i)%nat -> oct seg' i = oct seg i)
        /\ (oct seg 0 = 128 \/ (exists i, (6 <= i)%nat /\ oct seg i <> 0) -> (ok6 s6' d6' 58 seg' <-> ok6 s6 d6 58 seg))).
