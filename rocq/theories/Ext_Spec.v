(** RFC 4884: extended ICMP messages. *)
Require Import Verif.Base.

(** [msg] begins with [hdrs] octets of headers. Its length attribute says [f],
    counting in units of [unit] octets: the original datagram (maybe cut short,
    padded with zeros) takes that many, at least 128 octets, and then comes the
    extension. *)
Definition extended (unit f : Z) (hdrs : nat) (msg datagram ext : list Z) : Prop :=
  skipn hdrs msg = datagram ++ ext /\ Z.of_nat (length datagram) = unit * f /\ 128 <= Z.of_nat (length datagram) /\ 0 < f < 256 /\ ext <> [].
(** [d'] is [d], maybe cut short, and zeros. *)
Definition cut_padded (d d' : list Z) : Prop := exists k n, d' = firstn k d ++ repeat 0 n.
