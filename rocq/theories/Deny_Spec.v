(** Independent specification of the denylist: a multiset of prefixes. *)
Require Import Verif.Base Verif.Addr_Model Verif.Addr_Spec Verif.Deny_Model.

Definition bag := prefix4 -> nat.
Definition empty_bag : bag := fun _ => O.

(** Addresses that are never routable beyond a subnet: 0/8, 127/8, 169.254/16,
    224/4 and 255.255.255.255. *)
Definition subnet_scoped (a : Z) : Prop :=
  0 <= a < 2^24 \/ 127 * 2^24 <= a < 128 * 2^24 \/ 43518 * 2^16 <= a < 43519 * 2^16 \/
  14 * 2^28 <= a < 15 * 2^28 \/ a = 2^32 - 1.

(** Well-formed, and either forced or free of subnet-scoped addresses. *)
Definition admissible (p : prefix4) (force : bool) : Prop :=
  p4_len p <= 32 /\ p4_addr p mod 2 ^ (32 - p4_len p) = 0 /\
  (force = true \/ forall a, is_u32 a -> in_prefix 32 (p4_addr p) (p4_len p) a -> ~ subnet_scoped a).

(** What each operation answers and leaves. *)
Inductive deny_spec (b : bag) : deny_op -> rc -> bag -> Prop :=
| SAdd : forall p f b', admissible p f -> b' p = S (b p) -> (forall q, q <> p -> b' q = b q) ->
    deny_spec b (DAdd p f true) OK b'
| SAddNoMem : forall p f, admissible p f -> deny_spec b (DAdd p f false) (Err ENOMEM) b
| SAddBad : forall p f m, ~ admissible p f -> deny_spec b (DAdd p f m) (Err EINVAL) b
| SRm : forall p b', b p = S (b' p) -> (forall q, q <> p -> b' q = b q) -> deny_spec b (DRm p) OK b'
| SRmNone : forall p, b p = O -> deny_spec b (DRm p) (Err ESRCH) b
| SFlush : forall b', (forall q, b' q = O) -> deny_spec b (DFlush true) OK b'
| SFlushNoMem : deny_spec b (DFlush false) (Err ENOMEM) b.

Inductive deny_spec_run (b : bag) : list deny_op -> list rc -> bag -> Prop :=
| SNil : forall b', (forall q, b' q = b q) -> deny_spec_run b [] [] b'
| SCons : forall o ops r rs b1 b2, deny_spec b o r b1 -> deny_spec_run b1 ops rs b2 ->
    deny_spec_run b (o :: ops) (r :: rs) b2.

Definition wt_dop (o : deny_op) : Prop :=
  match o with DAdd p _ _ | DRm p => wt_prefix4 p | DFlush _ => True end.
