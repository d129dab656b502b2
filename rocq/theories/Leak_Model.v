(** Destruction of the EAMT. *)
Require Import Verif.Base Verif.Addr_Model Verif.Rtrie_Model Verif.Eam_Model.

(** rtrie.c:150-162 rtrie_clean: frees what is on the list.  The root and the
    list head are left as they are in the C code, which then frees the memory
    the trie itself is in; here they are emptied. *)
Definition rtrie_clean {V} (t : trie V) : trie V :=
  Trie (fun q => if existsb (Nat.eqb q) (t_list t) then None else t_heap t q) (t_next t) None [].

(** eam.c:488-493 eamt_release *)
Definition eamt_release (t : eamt) : eamt := Eamt (rtrie_clean (trie6 t)) (rtrie_clean (trie4 t)) (ecount t).
