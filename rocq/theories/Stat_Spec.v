(** What the counters should be, and what a listing of them should show, independently of how they are kept and sent. *)
Require Import Verif.Base Verif.Addr_Model Verif.Pool4_Model Verif.Bib_Model Verif.Glob_Model Verif.Inst_Model Verif.Nla_Model Verif.Req_Model Verif.Req_Spec
  Verif.Lst_Model Verif.Stat_Model.
Require Import String.
Open Scope list_scope.
Open Scope Z_scope.

(** How much has been counted of [id], on whichever processors *)
Definition amount (id : Z) (x : Z * count) : Z :=
  match snd x with Inc i => if i =? id then 1 else 0 | Dec i => if i =? id then -1 else 0 | Add i n => if i =? id then n else 0 end.
Definition total (l : list (Z * count)) (id : Z) : Z := fold_right Z.add 0 (map (amount id) l).

(** [n] numbers from [a] on; the counters after [last] *)
Fixpoint range (a : Z) (n : nat) : list Z := match n with O => [] | S n => a :: range (a + 1) n end.
Definition after (last : Z) : list Z := range (last + 1) (Z.to_nat (83 - last)).

(** What is shown of the counters [ids], with the values [v]: on machines that want alignment, a line about nothing before each *)
Definition lines (align : bool) (v : Z -> Z) (ids : list Z) : list stat :=
  flat_map (fun id => (if align then [Stat 84 None 0] else []) ++ [Stat id (nth_error stat_enum (Z.to_nat (id - 1))) (v id)]) ids.

(** What is shown of the counters [ids], if the instance's counters are as [views] say at each request: as many at a time as fit in a reply, or an error *)
Fixpoint shown_stats (w : answering) (align : bool) (ids : list Z) (views : list (errno + (Z -> Z))) : list stat * ending :=
  match views with
  | [] => ([], Pending)
  | inl e :: _ => ([], Failed (told w (Err e)))
  | inr v :: views =>
    let k := Z.to_nat ((a_cap w - 28) / (if align then 16 else 12)) in
    if (List.length ids <=? k)%nat then (lines align v ids, Complete)
    else let r := shown_stats w align (skipn k ids) views in (lines align v (firstn k ids) ++ fst r, snd r)
  end.

(** The counters that a request finds: those of the instance of the name [n] *)
Definition stats_in {S I} (K : kernel S I) (query : I -> S -> option (Z -> Z)) (xt : Z) (n : option name) (s : S) : errno + (Z -> Z) :=
  match k_find K (name_of n) xt s with
  | inl e => inl e
  | inr i => match query i s with None => inl ENOMEM | Some v => inr v end
  end.
