(** What the headers of translated packets have to be: RFC 791, RFC 8200, RFC
    792, RFC 4443 and RFC 7915. *)
Require Import Verif.Base Verif.Csum_Spec Verif.Pkt_Spec.

(** ** ICMP types and codes (RFC 7915 sections 4.2, 4.3, 5.2, 5.3) *)

(** A rule: type, first and last code it is about, new type, new code ([None]:
    unchanged). Messages no rule is about are dropped. *)
Definition rule : Type := Z * Z * Z * Z * option Z.
(** ICMPv4 to ICMPv6 *)
Definition rules46 : list rule :=
  [ (8, 0, 255, 128, Some 0);      (* Echo *)
    (0, 0, 255, 129, Some 0);      (* Echo Reply *)
    (3, 0, 1, 1, Some 0);          (* Net, Host Unreachable *)
    (3, 2, 2, 4, Some 1);          (* Protocol Unreachable *)
    (3, 3, 3, 1, Some 4);          (* Port Unreachable *)
    (3, 4, 4, 2, Some 0);          (* Fragmentation Needed *)
    (3, 5, 5, 1, Some 0);          (* Source Route Failed *)
    (3, 6, 8, 1, Some 0);          (* Destination Network/Host Unknown, Source Host Isolated *)
    (3, 9, 10, 1, Some 1);         (* Administratively Prohibited *)
    (3, 11, 12, 1, Some 0);        (* Unreachable for ToS *)
    (3, 13, 13, 1, Some 1);        (* Communication Administratively Prohibited *)
    (3, 15, 15, 1, Some 1);        (* Precedence cutoff *)
    (11, 0, 255, 3, None);         (* Time Exceeded *)
    (12, 0, 0, 4, Some 0);         (* Pointer indicates the error *)
    (12, 2, 2, 4, Some 0) ].       (* Bad length *)
(** ICMPv6 to ICMPv4 *)
Definition rules64 : list rule :=
  [ (128, 0, 255, 8, Some 0);
    (129, 0, 255, 0, Some 0);
    (1, 0, 0, 3, Some 1);          (* No route *)
    (1, 1, 1, 3, Some 10);         (* Administratively prohibited *)
    (1, 2, 2, 3, Some 1);          (* Beyond scope of source address *)
    (1, 3, 3, 3, Some 1);          (* Address unreachable *)
    (1, 4, 4, 3, Some 3);          (* Port unreachable *)
    (2, 0, 255, 3, Some 4);        (* Packet Too Big *)
    (3, 0, 255, 11, None);         (* Time Exceeded *)
    (4, 0, 0, 12, Some 0);         (* Erroneous header field *)
    (4, 1, 1, 3, Some 2) ].        (* Unrecognized next header *)
Definition becomes (rs : list rule) (type code type' code' : Z) : Prop :=
  exists lo hi n, In (type, lo, hi, type', n) rs /\ lo <= code <= hi
  /\ code' = match n with Some c => c | None => code end.

(** Parameter Problem pointers: RFC 7915 figures 3 and 6; first and last
    pointer, new one. *)
Definition pointers46 : list (Z * Z * Z) :=
  [(0, 0, 0); (1, 1, 1); (2, 3, 4); (8, 8, 7); (9, 9, 6); (12, 15, 8); (16, 19, 24)].
Definition pointers64 : list (Z * Z * Z) :=
  [(0, 0, 0); (1, 1, 1); (4, 5, 2); (6, 6, 9); (7, 7, 8); (8, 23, 12); (24, 39, 16)].
Definition points (t : list (Z * Z * Z)) (p p' : Z) : Prop := exists lo hi, In (lo, hi, p') t /\ lo <= p <= hi.

(** The last four octets of the ICMP header *)
Definition rest (h : list Z) : Z := 65536 * word h 4 + word h 6.
Definition is_echo (h : list Z) : Prop := In (oct h 0) [8; 0; 128; 129].

(** ** IP headers *)

Definition field (m : list Z) (o n : nat) : Z := be_of (firstn n (skipn o m)).
Definition df_set (m : list Z) (q : nat) : Prop := (word m (q + 6) / 16384) mod 2 = 1.
Definition tclass (m : list Z) (q : nat) : Z := (word m q / 16) mod 256.

(** At [q] there is an IPv4 header without options, with a correct checksum. *)
Definition ipv4_header (m : list Z) (q : nat) (tos len id : Z) (df more : Prop) (off ttl proto src dst : Z) : Prop :=
  oct m q = 69 /\ oct m (q + 1) = tos /\ word m (q + 2) = len /\ word m (q + 4) = id
  /\ word m (q + 6) / 32768 = 0 /\ (df_set m q <-> df) /\ (fr4_more m q <-> more) /\ fr4_offset m q = off
  /\ oct m (q + 8) = ttl /\ oct m (q + 9) = proto /\ field m (q + 12) 4 = src /\ field m (q + 16) 4 = dst
  /\ checks (firstn 20 (skipn q m)).

(** At [q] there is an IPv6 header with flow label 0. *)
Definition ipv6_header (m : list Z) (q : nat) (tc len nh hops src dst : Z) : Prop :=
  oct m q / 16 = 6 /\ tclass m q = tc /\ oct m (q + 1) mod 16 = 0 /\ word m (q + 2) = 0 /\ word m (q + 4) = len
  /\ oct m (q + 6) = nh /\ oct m (q + 7) = hops /\ field m (q + 8) 16 = src /\ field m (q + 24) 16 = dst.

Definition fragment_header (m : list Z) (q : nat) (nh off : Z) (more : Prop) (id : Z) : Prop :=
  oct m q = nh /\ oct m (q + 1) = 0 /\ fr_offset m q = off /\ (fr_more m q <-> more) /\ (word m (q + 2) / 2) mod 4 = 0
  /\ 65536 * word m (q + 4) + word m (q + 6) = id.

(** A routing header, if any, is used up. *)
Definition routing_done (m : list Z) (hs : list (Z * nat)) : Prop :=
  match where_is 43 hs with Some r => oct m (r + 3) = 0 | None => True end.
(** What the headers [hs] say about fragmentation. [id] and [big] are for
    packets without a fragment header. *)
Definition id64 (m : list Z) (hs : list (Z * nat)) (id : Z) : Z :=
  match where_is 44 hs with Some f => word m (f + 6) | None => id end.
Definition df64 (hs : list (Z * nat)) (big : Prop) : Prop :=
  match where_is 44 hs with Some _ => False | None => big end.
Definition more64 (m : list Z) (hs : list (Z * nat)) : Prop :=
  match where_is 44 hs with Some f => fr_more m f | None => False end.
Definition off64 (m : list Z) (hs : list (Z * nat)) : Z :=
  match where_is 44 hs with Some f => fr_offset m f | None => 0 end.

(** Protocol numbers differ only for ICMP. *)
Definition proto64 (p : Z) : Z := if p =? 58 then 1 else p.
Definition proto46 (p : Z) : Z := if p =? 1 then 58 else p.

(** ** MTUs *)

Definition lowest (l : list Z) (x : Z) : Prop := In x l /\ forall y, In y l -> x <= y.
Definition opt (o : option Z) : list Z := match o with Some x => [x] | None => [] end.
(** RFC 7915 section 5.2, Packet Too Big saying [mtu] *)
Definition bounds4 (mtu : Z) (in6 out4 : option Z) : list Z := (mtu - 20) :: opt out4 ++ map (fun x => x - 20) (opt in6).
(** RFC 7915 section 4.2, Fragmentation Needed; [mtu] is what it says or the plateau *)
Definition bounds6 (mtu : Z) (in4 out6 : option Z) : list Z := (mtu + 20) :: opt out6 ++ map (fun x => x + 20) (opt in4).
(** The greatest of the plateaus below [len] (RFC 1191 section 7) *)
Definition plateau_below (ps : list Z) (len x : Z) : Prop := In x ps /\ x < len /\ (forall y, In y ps -> y < len -> y <= x).
Inductive descending : list Z -> Prop :=
| d_nil : descending []
| d_cons x l : (forall y, In y l -> y < x) -> descending l -> descending (x :: l).

(** ** Fragments *)

(** The packets are IPv6 fragments, one after the other, of which the first is at
    offset [off] of the datagram; together they carry [data]. More-Fragments is
    set in all but the last, in which it says [more]. *)
Section series.
Context (tc hops src dst nh id : Z) (more : Prop).
Definition fragment6 (o : list Z) (off : Z) (mf : Prop) (d : list Z) : Prop :=
  ipv6_header o 0 tc (Z.of_nat (length o) - 40) 44 hops src dst /\ fragment_header o 40 nh off mf id /\ skipn 48 o = d /\ d <> [].
Inductive series : Z -> list Z -> list (list Z) -> Prop :=
| s_last off o d : fragment6 o off more d -> series off d [o]
| s_more off o d d' os : fragment6 o off True d -> series (off + Z.of_nat (length d)) d' os -> series off (d ++ d') (o :: os).
End series.
