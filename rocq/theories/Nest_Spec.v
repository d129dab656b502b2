(** EAMT histories with prefixes nested one inside the other. *)
Require Import Verif.Base Verif.Addr_Model Verif.Addr_Spec Verif.Eam_Model Verif.Eam_Spec.

(** Additions go from the general to the particular: the new prefixes cover no
    stored one.  Removals go back: the stored prefixes inside the one that
    leaves are nested in each other (in particular, none or just one). *)
Definition orderly (tbl : list eam) (o : eam_op) : Prop :=
  match o with
  | EAdd e _ _ => forall e', In e' tbl -> ~ wider6 (e_p6 e) (e_p6 e') /\ ~ wider4 (e_p4 e) (e_p4 e')
  | ERm o6 o4 _ _ => forall e, In e tbl -> names o6 o4 e -> forall a b, In a tbl -> In b tbl ->
      (wider6 (e_p6 e) (e_p6 a) -> wider6 (e_p6 e) (e_p6 b) -> overlap6 (e_p6 a) (e_p6 b)) /\
      (wider4 (e_p4 e) (e_p4 a) -> wider4 (e_p4 e) (e_p4 b) -> overlap4 (e_p4 a) (e_p4 b))
  | EFlush => True
  end.

Fixpoint orderly_history (tbl : list eam) (ops : list eam_op) : Prop :=
  match ops with
  | [] => True
  | o :: ops' => wt_op o /\ orderly tbl o /\ forall r tbl', espec_step tbl o r tbl' -> orderly_history tbl' ops'
  end.

(** No two entries have a prefix in common. *)
Definition distinct_entries (tbl : list eam) : Prop :=
  ForallOrdPairs (fun a b => e_p6 a <> e_p6 b /\ e_p4 a <> e_p4 b) tbl.
