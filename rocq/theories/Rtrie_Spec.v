(** Independent specification of the EAMT trie: a finite set of keyed values
    with longest-prefix lookup. *)
Require Import Verif.Base Verif.Addr_Model Verif.Rtrie_Model.
Require Export Permutation.

(** [a] is a prefix of [b]. *)
Definition prefix_of (a b : list bool) : Prop := exists s, b = a ++ s.
(** One of the two contains the other. *)
Definition overlap (a b : list bool) : Prop := prefix_of a b \/ prefix_of b a.

Section Spec.
Context {V : Type}.

(** What a table of keyed values may answer to a lookup of [q]. *)
Definition longest_match (tbl : list (list bool * V)) (q : list bool) (r : option V) : Prop :=
  match r with
  | Some v => exists k, In (k, v) tbl /\ prefix_of k q /\
                forall k' v', In (k', v') tbl -> prefix_of k' q -> (length k' <= length k)%nat
  | None => forall k v, In (k, v) tbl -> ~ prefix_of k q
  end.

(** Effect of one operation on the table (up to reordering). *)
Inductive spec_step (tbl : list (list bool * V)) : trie_op V -> rc -> list (list bool * V) -> Prop :=
| SAdd : forall ok1 ok2 k v tbl', ~ In k (map fst tbl) -> Permutation ((k, v) :: tbl) tbl' ->
    spec_step tbl (TAdd ok1 ok2 k v) OK tbl'
| SAddDup : forall ok1 ok2 k v, In k (map fst tbl) -> spec_step tbl (TAdd ok1 ok2 k v) (Err EEXIST) tbl
| SAddNoMem : forall ok1 ok2 k v, ok1 && ok2 = false -> spec_step tbl (TAdd ok1 ok2 k v) (Err ENOMEM) tbl
| SRm : forall ok k v tbl', Permutation tbl ((k, v) :: tbl') -> ~ In k (map fst tbl') ->
    spec_step tbl (TRm ok k) OK tbl'
| SRmNone : forall ok k, ~ In k (map fst tbl) -> spec_step tbl (TRm ok k) (Err ESRCH) tbl
| SFlush : spec_step tbl TFlush OK [].

Inductive spec_run (tbl : list (list bool * V)) : list (trie_op V) -> list rc -> list (list bool * V) -> Prop :=
| SRNil : spec_run tbl [] [] tbl
| SRCons : forall o ops r rs tbl' tbl'', spec_step tbl o r tbl' -> spec_run tbl' ops rs tbl'' ->
    spec_run tbl (o :: ops) (r :: rs) tbl''.

(** The key being added overlaps no different key that is currently stored. *)
Definition fits (tbl : list (list bool * V)) (o : trie_op V) : Prop :=
  match o with
  | TAdd _ _ k _ => forall k', In k' (map fst tbl) -> overlap k k' -> k = k'
  | _ => True
  end.

(** A history which, started from [tbl], never stores two overlapping keys at
    the same time. *)
Fixpoint never_overlaps (tbl : list (list bool * V)) (ops : list (trie_op V)) : Prop :=
  match ops with
  | [] => True
  | o :: ops' => fits tbl o /\ forall r tbl', spec_step tbl o r tbl' -> never_overlaps tbl' ops'
  end.

End Spec.
