(** What arguments mean, written without the parser. *)
Require Import Verif.Base.

Definition digit (c : Z) : Prop := 48 <= c <= 57.
(** A digit counts as often as its place says. *)
Fixpoint value (s : list Z) : Z := match s with [] => 0 | c :: t => (c - 48) * 10 ^ Z.of_nat (length t) + value t end.
(** [s] is the number [n], in decimal. *)
Definition decimal (s : list Z) (n : Z) : Prop := s <> [] /\ Forall digit s /\ value s = n.

(** [[HH:]MM:]SS in seconds *)
Inductive clock : list Z -> Z -> Prop :=
| clock_s : forall s x, decimal s x -> clock s x
| clock_ms : forall m s x y, decimal m x -> decimal s y -> clock (m ++ [58] ++ s) (60 * x + y)
| clock_hms : forall h m s x y z, decimal h x -> decimal m y -> decimal s z -> clock (h ++ [58] ++ m ++ [58] ++ s) (3600 * x + 60 * y + z).
(** [[HH:]MM:]SS[.mmm] in milliseconds *)
Inductive timeout : list Z -> Z -> Prop :=
| timeout_s : forall s x, clock s x -> timeout s (1000 * x)
| timeout_ms : forall s f x y, clock s x -> decimal f y -> length f = 3%nat -> timeout (s ++ [46] ++ f) (1000 * x + y).

(** A port, or two separated by a dash *)
Inductive ports : list Z -> Z -> Z -> Prop :=
| ports_one : forall s n, decimal s n -> n <= 65535 -> ports s n n
| ports_two : forall a b m n, decimal a m -> m <= 65535 -> decimal b n -> n <= 65535 -> ports (a ++ [45] ++ b) m n.
(** An address, and optionally its length *)
Inductive addr_prefix (addr : list Z -> Z -> Prop) (max : Z) : list Z -> Z -> Z -> Prop :=
| prefix_addr : forall s a, addr s a -> addr_prefix addr max s a max
| prefix_len : forall s l a n, addr s a -> decimal l n -> n <= max -> addr_prefix addr max (s ++ [47] ++ l) a n.
(** An address and a port *)
Inductive taddr (addr : list Z -> Z -> Prop) : list Z -> Z -> Z -> Prop :=
| taddr_intro : forall s p a n, addr s a -> decimal p n -> n <= 65535 -> taddr addr (s ++ [35] ++ p) a n.
(** Numbers separated by commas *)
Inductive numbers : list Z -> list Z -> Prop :=
| numbers_one : forall s n, decimal s n -> n <= 65535 -> numbers s [n]
| numbers_more : forall s n t l, decimal s n -> n <= 65535 -> numbers t l -> numbers (s ++ [44] ++ t) (n :: l).
