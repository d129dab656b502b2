(** Independent specification of the EAMT (docs/en/usr-flags-eamt.md, RFC 7757):
    a set of entries, in terms of the addresses each prefix covers. *)
Require Import Verif.Base Verif.Addr_Model Verif.Addr_Spec Verif.Eam_Model.
Require Export Permutation.

(** Address [a] lies in a prefix. *)
Definition in4 (p : prefix4) (a : Z) : Prop := in_prefix 32 (p4_addr p) (p4_len p) a.
Definition in6 (p : prefix6) (a : Z) : Prop := in_prefix 128 (p6_addr p) (p6_len p) a.

(** The prefixes have an address in common. *)
Definition overlap4 (p q : prefix4) : Prop := exists a, is_u32 a /\ in4 p a /\ in4 q a.
Definition overlap6 (p q : prefix6) : Prop := exists a, is_u128 a /\ in6 p a /\ in6 q a.

(** [p] covers [q] and more. *)
Definition wider4 (p q : prefix4) : Prop := p4_len p < p4_len q /\ in4 p (p4_addr q).
Definition wider6 (p q : prefix6) : Prop := p6_len p < p6_len q /\ in6 p (p6_addr q).

(** A legal entry: both prefixes normalised, and the IPv4 suffix fits in the
    IPv6 one. *)
Definition legal (e : eam) : Prop :=
  p6_len (e_p6 e) <= 128 /\ p6_addr (e_p6 e) mod 2 ^ (128 - p6_len (e_p6 e)) = 0 /\
  p4_len (e_p4 e) <= 32 /\ p4_addr (e_p4 e) mod 2 ^ (32 - p4_len (e_p4 e)) = 0 /\
  32 - p4_len (e_p4 e) <= 128 - p6_len (e_p6 e).

(** C types of the fields of an entry. *)
Definition wt_eam (e : eam) : Prop := wt_prefix6 (e_p6 e) /\ wt_prefix4 (e_p4 e).

(** Longest prefix match over a set of entries. *)
Definition lpm4 (tbl : list eam) (a : Z) (r : option eam) : Prop :=
  match r with
  | Some e => In e tbl /\ in4 (e_p4 e) a /\
              forall e', In e' tbl -> in4 (e_p4 e') a -> p4_len (e_p4 e') <= p4_len (e_p4 e)
  | None => forall e, In e tbl -> ~ in4 (e_p4 e) a
  end.
Definition lpm6 (tbl : list eam) (a : Z) (r : option eam) : Prop :=
  match r with
  | Some e => In e tbl /\ in6 (e_p6 e) a /\
              forall e', In e' tbl -> in6 (e_p6 e') a -> p6_len (e_p6 e') <= p6_len (e_p6 e)
  | None => forall e, In e tbl -> ~ in6 (e_p6 e) a
  end.

Definition mem_ok (m : amem) : Prop := m6a m = true /\ m6b m = true /\ m4a m = true /\ m4b m = true.

(** [o6]/[o4] name the entry [e] in a removal request. *)
Definition names (o6 : option prefix6) (o4 : option prefix4) (e : eam) : Prop :=
  (o6 <> None \/ o4 <> None) /\
  (forall p, o6 = Some p -> p6_len p = p6_len (e_p6 e) /\ in6 (e_p6 e) (p6_addr p)) /\
  (forall p, o4 = Some p -> p4_len p = p4_len (e_p4 e) /\ in4 (e_p4 e) (p4_addr p)).

(** What one operation may answer and leave behind. *)
Inductive espec_step (tbl : list eam) : eam_op -> rc -> list eam -> Prop :=
| ESAdd : forall e f m tbl', legal e ->
    (forall e', In e' tbl -> e_p6 e' <> e_p6 e /\ e_p4 e' <> e_p4 e) ->
    (f = false -> forall e', In e' tbl -> ~ overlap6 (e_p6 e) (e_p6 e') /\ ~ overlap4 (e_p4 e) (e_p4 e')) ->
    Permutation (e :: tbl) tbl' -> espec_step tbl (EAdd e f m) OK tbl'
| ESAddIllegal : forall e f m, ~ legal e -> espec_step tbl (EAdd e f m) (Err EINVAL) tbl
| ESAddExists : forall e f m e', legal e -> In e' tbl ->
    (e_p6 e' = e_p6 e \/ e_p4 e' = e_p4 e) \/
    (f = false /\ (overlap6 (e_p6 e) (e_p6 e') \/ overlap4 (e_p4 e) (e_p4 e'))) ->
    espec_step tbl (EAdd e f m) (Err EEXIST) tbl
| ESAddNoMem : forall e f m, ~ mem_ok m -> espec_step tbl (EAdd e f m) (Err ENOMEM) tbl
| ESRm : forall o6 o4 m1 m2 e tbl', names o6 o4 e ->
    Permutation tbl (e :: tbl') -> (forall e', In e' tbl' -> ~ names o6 o4 e') ->
    espec_step tbl (ERm o6 o4 m1 m2) OK tbl'
| ESRmNone : forall o6 o4 m1 m2, (o6 <> None \/ o4 <> None) -> (forall e, In e tbl -> ~ names o6 o4 e) ->
    espec_step tbl (ERm o6 o4 m1 m2) (Err ESRCH) tbl
| ESRmInval : forall m1 m2, espec_step tbl (ERm None None m1 m2) (Err EINVAL) tbl
| ESFlush : espec_step tbl EFlush OK [].

Inductive espec_run (tbl : list eam) : list eam_op -> list rc -> list eam -> Prop :=
| ESRNil : espec_run tbl [] [] tbl
| ESRCons : forall o ops r rs tbl' tbl'', espec_step tbl o r tbl' -> espec_run tbl' ops rs tbl'' ->
    espec_run tbl (o :: ops) (r :: rs) tbl''.

(** C types of the arguments. *)
Definition wt_op (o : eam_op) : Prop :=
  match o with
  | EAdd e _ _ => wt_eam e
  | ERm o6 o4 _ _ => (forall p, o6 = Some p -> wt_prefix6 p) /\ (forall p, o4 = Some p -> wt_prefix4 p)
  | EFlush => True
  end.

(** The addition does not swallow a stored prefix; a forced one is not inside
    a stored prefix either. *)
Definition tame (tbl : list eam) (o : eam_op) : Prop :=
  match o with
  | EAdd e force _ => forall e', In e' tbl ->
      ~ wider6 (e_p6 e) (e_p6 e') /\ ~ wider4 (e_p4 e) (e_p4 e') /\
      (force = true -> ~ wider6 (e_p6 e') (e_p6 e) /\ ~ wider4 (e_p4 e') (e_p4 e))
  | _ => True
  end.

Fixpoint tame_history (tbl : list eam) (ops : list eam_op) : Prop :=
  match ops with
  | [] => True
  | o :: ops' => wt_op o /\ tame tbl o /\ forall r tbl', espec_step tbl o r tbl' -> tame_history tbl' ops'
  end.

(** No two entries overlap, in either family. *)
Definition disjoint_entries (tbl : list eam) : Prop :=
  ForallOrdPairs (fun a b => ~ overlap6 (e_p6 a) (e_p6 b) /\ ~ overlap4 (e_p4 a) (e_p4 b)) tbl.
