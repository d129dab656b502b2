(** What RFC 8200, RFC 791, RFC 792 and RFC 4443 say a packet looks like. *)
Require Import Verif.Base.

Definition oct (m : list Z) (o : nat) : Z := nth o m 0.
Definition word (m : list Z) (o : nat) : Z := 256 * oct m o + oct m (o + 1).

(** RFC 8200: the octet string [m] has, from offset [off] on, where the header
    of type [nh] is, the extension headers [hs] (types and places) and then the
    upper layer header [up], of type [p]. A fragment header is the last one: what
    follows it is (a piece of) the fragmentable part. *)
Inductive chain (m : list Z) : Z -> nat -> list (Z * nat) -> Z -> nat -> Prop :=
| c_upper nh off : ~ In nh [0; 43; 44; 60] -> chain m nh off [] nh off
| c_ext nh off hs p up :
    In nh [0; 43; 60] -> (off + 2 <= length m)%nat ->
    chain m (oct m off) (off + 8 + 8 * Z.to_nat (oct m (off + 1)))%nat hs p up ->
    chain m nh off ((nh, off) :: hs) p up
| c_frag off p :
    (off + 8 <= length m)%nat -> p = oct m off -> ~ In p [0; 43; 44; 60] ->
    chain m 44 off [(44, off)] p (off + 8)%nat.

(** Where the first header of a type is. *)
Definition where_is (ty : Z) (hs : list (Z * nat)) : option nat := option_map snd (find (fun x => fst x =? ty) hs).

(** Fragment header: offset in octets, "more fragments" *)
Definition fr_offset (m : list Z) (f : nat) : Z := word m (f + 2) - word m (f + 2) mod 8.
Definition fr_more (m : list Z) (f : nat) : Prop := word m (f + 2) mod 2 = 1.
Definition first_piece (m : list Z) (hs : list (Z * nat)) : Prop :=
  match where_is 44 hs with Some f => fr_offset m f = 0 | None => True end.
Definition whole (m : list Z) (hs : list (Z * nat)) : Prop :=
  match where_is 44 hs with Some f => fr_offset m f = 0 /\ ~ fr_more m f | None => True end.

(** The transport header at [up] of a packet that has its beginning ends at
    [pay]. TCP: as its data offset says; UDP and ICMP: 8 octets; other: none. *)
Definition transport_end (m : list Z) (icmp p : Z) (up pay : nat) : Prop :=
  (p = 6 -> (up + 20 <= length m)%nat /\ pay = (up + 4 * Z.to_nat (oct m (up + 12) / 16))%nat)
  /\ (p = 17 \/ p = icmp -> pay = (up + 8)%nat)
  /\ (p <> 6 -> p <> 17 -> p <> icmp -> pay = up).

Definition icmp6_error_type (t : Z) : Prop := In t [1; 2; 3; 4].
Definition icmp4_error_type (t : Z) : Prop := In t [3; 4; 5; 11; 12].

(** An IPv6 packet, maybe cut short, inside of an ICMPv6 error, at [q]: it is the
    beginning of a packet, has all its headers, and is no ICMPv6 error. [pay] is
    where its headers end. *)
Definition inner6 (m : list Z) (q : nat) (hs : list (Z * nat)) (p : Z) (up pay : nat) : Prop :=
  (q + 40 <= length m)%nat /\ oct m q / 16 = 6 /\ chain m (oct m (q + 6)) (q + 40) hs p up
  /\ first_piece m hs /\ transport_end m 58 p up pay /\ (pay <= length m)%nat
  /\ (p = 58 -> ~ icmp6_error_type (oct m up)).

(** An IPv6 packet which can be translated, as far as its layout goes. *)
Definition packet6 (m : list Z) (hs : list (Z * nat)) (p : Z) (up pay : nat) : Prop :=
  Z.of_nat (length m) = 40 + word m 4
  /\ chain m (oct m 6) 40 hs p up
  /\ (first_piece m hs -> transport_end m 58 p up pay)
  /\ (~ first_piece m hs -> pay = up)
  /\ (pay <= length m)%nat
  /\ (p = 58 -> whole m hs /\ (up + 8 <= length m)%nat
      /\ (icmp6_error_type (oct m up) -> exists hs' p' up' pay', inner6 m pay hs' p' up' pay')).

(** The same for IPv4 *)
Definition ihl (m : list Z) (q : nat) : nat := (4 * Z.to_nat (oct m q mod 16))%nat.
Definition fr4_offset (m : list Z) (q : nat) : Z := 8 * (word m (q + 6) mod 8192).
Definition fr4_more (m : list Z) (q : nat) : Prop := (word m (q + 6) / 8192) mod 2 = 1.

Definition inner4 (m : list Z) (q pay : nat) : Prop :=
  (q + 20 <= length m)%nat /\ oct m q / 16 = 4 /\ (20 <= ihl m q)%nat /\ Z.of_nat (ihl m q) <= word m (q + 2)
  /\ fr4_offset m q = 0 /\ transport_end m 1 (oct m (q + 9)) (q + ihl m q) pay /\ (pay <= length m)%nat.

Definition packet4 (m : list Z) (p : Z) (up pay : nat) : Prop :=
  (20 <= length m)%nat /\ p = oct m 9 /\ up = ihl m 0
  /\ (fr4_offset m 0 = 0 -> transport_end m 1 p up pay)
  /\ (fr4_offset m 0 <> 0 -> pay = up)
  /\ (pay <= length m)%nat
  /\ (p = 1 -> fr4_offset m 0 = 0 /\ ~ fr4_more m 0 /\ (up + 8 <= length m)%nat
      /\ (icmp4_error_type (oct m up) -> exists pay', inner4 m pay pay')).

(** RFC 791: [m] has well formed options from [cur] to [fin]. *)
Inductive options (m : list Z) (fin : nat) : nat -> Prop :=
| o_none : options m fin fin
| o_end cur : (cur < fin)%nat -> oct m cur = 0 -> options m fin cur
| o_nop cur : (cur < fin)%nat -> oct m cur = 1 -> options m fin (cur + 1)%nat -> options m fin cur
| o_opt cur : oct m cur <> 0 -> oct m cur <> 1 -> (cur + 2 <= fin)%nat -> 2 <= oct m (cur + 1) ->
    (In (oct m cur) [131; 137] -> 3 <= oct m (cur + 1)) ->
    (cur + Z.to_nat (oct m (cur + 1)) <= fin)%nat ->
    options m fin (cur + Z.to_nat (oct m (cur + 1)))%nat -> options m fin cur.

(** [at_opt m fin cur o]: going through the options from [cur] on, there is one
    at [o]. *)
Inductive at_opt (m : list Z) (fin : nat) : nat -> nat -> Prop :=
| a_here cur : (cur < fin)%nat -> at_opt m fin cur cur
| a_nop cur o : (cur < fin)%nat -> oct m cur = 1 -> at_opt m fin (cur + 1)%nat o -> at_opt m fin cur o
| a_opt cur o : (cur < fin)%nat -> oct m cur <> 0 -> oct m cur <> 1 ->
    at_opt m fin (cur + Z.to_nat (oct m (cur + 1)))%nat o -> at_opt m fin cur o.

(** RFC 791: a source route (loose or strict) which is not used up: its pointer
    is not past its end. A packet has at most one source route. *)
Definition source_route (m : list Z) (o : nat) : Prop := In (oct m o) [131; 137].
Definition unexpired (m : list Z) (o : nat) : Prop := oct m (o + 2) <= oct m (o + 1).
