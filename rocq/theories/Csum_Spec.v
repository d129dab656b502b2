(** What a correct checksum is: RFC 1071, RFC 9293 section 3.1, RFC 768, RFC 8200
    section 8.1, RFC 792, RFC 4443 section 2.3. *)
Require Import Verif.Base.

(** The 16 bit words of the octets, in network byte order, the last one padded
    with a zero octet, added as numbers. *)
Fixpoint wsum (m : list Z) : Z :=
  match m with
  | [] => 0
  | [a] => 256 * a
  | a :: b :: m' => 256 * a + b + wsum m'
  end.

(** RFC 1071: "If the result is all 1 bits, the check succeeds." The one's
    complement sum of words with sum [s] is all ones when [s] is a multiple of
    65535 other than zero. *)
Definition checks (m : list Z) : Prop := wsum m <> 0 /\ wsum m mod 65535 = 0.

(** RFC 9293 and RFC 768: source, destination, zero, protocol, length. *)
Definition pseudo4 (src dst proto len : Z) : list Z :=
  octets 4 src ++ octets 4 dst ++ [0; proto] ++ octets 2 len.
(** RFC 8200: source, destination, length, three zeros, next header. *)
Definition pseudo6 (src dst proto len : Z) : list Z :=
  octets 16 src ++ octets 16 dst ++ octets 4 len ++ [0; 0; 0; proto].

Definition ok4 (src dst proto : Z) (seg : list Z) : Prop :=
  checks (pseudo4 src dst proto (Z.of_nat (length seg)) ++ seg).
Definition ok6 (src dst proto : Z) (seg : list Z) : Prop :=
  checks (pseudo6 src dst proto (Z.of_nat (length seg)) ++ seg).

(** Octets, a datagram that an IP packet can carry. *)
Definition datagram (seg : list Z) : Prop := Forall is_u8 seg /\ Z.of_nat (length seg) <= 65535.

(** [out] is [seg] but for the given ports and the two octets at [off]. *)
Definition same_but (off : nat) (ports : option (Z * Z)) (seg out : list Z) : Prop :=
  length out = length seg /\
  (forall i, (4 <= i < length seg)%nat -> i <> off -> i <> S off -> nth i out 0 = nth i seg 0) /\
  match ports with
  | None => forall i, (i < 4)%nat -> nth i out 0 = nth i seg 0
  | Some (s, d) => 256 * nth 0 out 0 + nth 1 out 0 = s /\ 256 * nth 2 out 0 + nth 3 out 0 = d
  end.
Definition good_ports (ports : option (Z * Z)) : Prop :=
  match ports with None => True | Some (s, d) => is_u16 s /\ is_u16 d end.
