(** Which memory a trie holds on to. *)
Require Import Verif.Base Verif.Addr_Model Verif.Rtrie_Model Verif.Eam_Model.

Section Leak.
Context {V : Type}.

(** The node at [q] has been allocated and not freed. *)
Definition live (t : trie V) (q : nat) : Prop := t_heap t q <> None.

(** An addition that had got memory for its entry, and still failed for lack of
    it or because the trie looked broken. *)
Definition failed_add (o : trie_op V) (r : rc) : bool :=
  match o, r with
  | TAdd true _ _ _, Err ENOMEM | TAdd true _ _ _, Err EINVAL => true
  | _, _ => false
  end.

Fixpoint failed_adds (ops : list (trie_op V)) (rs : list rc) : nat :=
  match ops, rs with
  | o :: ops', r :: rs' => ((if failed_add o r then 1 else 0) + failed_adds ops' rs')%nat
  | _, _ => 0%nat
  end.

End Leak.

(** Nothing is allocated any more, in either of the two tries. *)
Definition nothing_live (t : eamt) : Prop := forall q, ~ live (trie6 t) q /\ ~ live (trie4 t) q.

Require Import Verif.Eam_Spec.

(** An addition to the table that was not turned down for lack of memory, nor
    (being legal) because a trie looked broken. *)
Definition remembered (o : eam_op) (r : rc) : Prop :=
  match o with
  | EAdd e _ _ => r <> Err ENOMEM /\ (legal e -> r <> Err EINVAL)
  | _ => True
  end.

(** Every allocation an addition asks for succeeds. *)
Definition memory_ok (o : eam_op) : Prop :=
  match o with EAdd _ _ m => mem_ok m | _ => True end.
