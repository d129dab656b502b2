(** Independent vocabulary for addresses and prefixes. *)
Require Import Verif.Base.

(** [a] lies in the [w]-bit prefix [base]/[len]: the quotients by the size of
    the suffix are equal. *)
Definition in_prefix (w base len a : Z) : Prop := a / 2 ^ (w - len) = base / 2 ^ (w - len).

(** RFC 6052 section 2.2: the IPv4 octets follow the prefix, stepping over
    octet 8 (bits 64..71) unless the prefix is a /96. *)
Definition rfc6052_pos (len : Z) (i : Z) : Z :=
  let p := len / 8 + i in
  if len =? 96 then p else if p <? 8 then p else p + 1.

Definition rfc6052_len (len : Z) : Prop :=
  len = 32 \/ len = 40 \/ len = 48 \/ len = 56 \/ len = 64 \/ len = 96.

(** [a6] is the RFC 6052 representation of [a4] under [base]/[len]. *)
Definition rfc6052_layout (base len a4 a6 : Z) : Prop :=
  0 <= a6 < 2^128 /\
  forall j, 0 <= j < 16 ->
    octet 16 a6 (Z.to_nat j) =
      if j <? len / 8 then octet 16 base (Z.to_nat j)
      else match find (fun i => rfc6052_pos len i =? j) [0; 1; 2; 3] with
           | Some i => octet 4 a4 (Z.to_nat i)
           | None => 0
           end.
