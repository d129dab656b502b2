(** Independent specification of pool4: a set of IPv4 transport addresses per
    protocol and mark. *)
Require Import Verif.Base Verif.Addr_Model Verif.Addr_Spec Verif.Rtrie_Model Verif.Pool4_Model.

(** Types of the C fields. *)
Definition wt_range (r : range) : Prop :=
  is_u32 (r_addr r) /\ is_u8 (r_len r) /\ is_u16 (r_min r) /\ is_u16 (r_max r).
Definition wt_op (o : op) : Prop :=
  match o with
  | OAdd e _ _ _ => is_u32 (pe_mark e) /\ is_u32 (pe_iter e) /\ is_u8 (pe_flags e) /\ wt_range (pe_range e)
  | ORm mark _ r _ => is_u32 mark /\ wt_range r
  | OFlush => True
  | OUpdate _ mark flags iters => is_u32 mark /\ is_u8 flags /\ is_u32 iters
  end.

(** The transport addresses a request names; the ports may come in either
    order. *)
Definition covers (r : range) (a p : Z) : Prop :=
  in_prefix 32 (r_addr r) (r_len r) a /\
  (r_min r <= p <= r_max r \/ r_max r <= p <= r_min r).

(** TCP and UDP have no port zero. *)
Definition port_ok (pr : proto) (p : Z) : Prop :=
  match pr with TCP | UDP => p <> 0 | _ => True end.

(** [held log pr m a p]: mark [m] holds [a]:[p], after the log (newest
    first).  Requests which were refused count for nothing. *)
Fixpoint held (log : list (op * rc)) (pr : proto) (m a p : Z) : Prop :=
  match log with
  | [] => False
  | (OAdd e _ _ _, OK) :: log' =>
      (pe_proto e = pr /\ pe_mark e = m /\ covers (pe_range e) a p /\ port_ok pr p) \/ held log' pr m a p
  | (ORm m' pr' r _, OK) :: log' => held log' pr m a p /\ ~ (pr' = pr /\ m' = m /\ covers r a p)
  | (OFlush, _) :: _ => False
  | _ :: log' => held log' pr m a p
  end.

(** The same for the whole of pool4, marks disregarded. *)
Fixpoint visible (log : list (op * rc)) (pr : proto) (a p : Z) : Prop :=
  match log with
  | [] => False
  | (OAdd e _ _ _, OK) :: log' => (pe_proto e = pr /\ covers (pe_range e) a p /\ port_ok pr p) \/ visible log' pr a p
  | (ORm _ pr' r _, OK) :: log' => visible log' pr a p /\ ~ (pr' = pr /\ covers r a p)
  | (OFlush, _) :: _ => False
  | _ :: log' => visible log' pr a p
  end.

(** Allocation never failed. *)
Definition no_enomem (log : list (op * rc)) : Prop := forall o, ~ In (o, Err ENOMEM) log.

Definition op_mark (o : op) : option Z :=
  match o with OAdd e _ _ _ => Some (pe_mark e) | ORm m _ _ _ => Some m | OFlush => None | OUpdate _ m _ _ => Some m end.

(** The addition names at least one transport address. *)
Definition not_vacuous (o : op) : Prop :=
  match o with
  | OAdd e _ _ _ => port_ok (pe_proto e) (Z.max (r_min (pe_range e)) (r_max (pe_range e)))
  | _ => True
  end.

(** Ranges in increasing order, with a gap between any two of one address. *)
Definition before (a b : range) : Prop :=
  r_addr a < r_addr b \/ r_addr a = r_addr b /\ r_max a + 1 < r_min b.
Fixpoint ordered (l : list range) : Prop :=
  match l with [] => True | r :: l' => (forall r', In r' l' -> before r r') /\ ordered l' end.

(** [l] lists exactly the transport addresses of [P], once each. *)
Definition lists (l : list (Z * Z)) (P : Z -> Z -> Prop) : Prop :=
  NoDup l /\ forall a p, In (a, p) l <-> P a p.

(** Conditions under which the size of a mark stays exact: an addition is, at
    each address, either clear of what the mark holds (not even adjacent) or
    already held; a removal leaves no range open on both sides. *)
Definition benign (log : list (op * rc)) (o : op) : Prop :=
  match o with
  | OAdd e _ _ _ =>
      not_vacuous o /\
      forall a, in_prefix 32 (r_addr (pe_range e)) (r_len (pe_range e)) a ->
        let lo := Z.min (r_min (pe_range e)) (r_max (pe_range e)) in
        let hi := Z.max (r_min (pe_range e)) (r_max (pe_range e)) in
        (forall p, lo - 1 <= p <= hi + 1 -> ~ held log (pe_proto e) (pe_mark e) a p) \/
        (forall p, lo <= p <= hi -> port_ok (pe_proto e) p -> held log (pe_proto e) (pe_mark e) a p)
  | ORm m pr r _ =>
      forall a, in_prefix 32 (r_addr r) (r_len r) a ->
        ~ (held log pr m a (Z.min (r_min r) (r_max r) - 1) /\ held log pr m a (Z.max (r_min r) (r_max r) + 1))
  | _ => True
  end.
Fixpoint all_benign (log : list (op * rc)) : Prop :=
  match log with [] => True | (o, r) :: log' => (r = OK -> benign log' o) /\ all_benign log' end.

(** What a loop over mask_domain_next gets to see before -ENOENT. *)
Fixpoint enum (fuel : nat) (d : domain) : res (list (Z * Z * bool)) :=
  match fuel with
  | O => NoFuel
  | S fuel' =>
    let! x := mask_domain_next d in
    match x with
    | (_, inr _) => Ok []
    | (d', inl y) => let! l := enum fuel' d' in Ok (y :: l)
    end
  end.

(** The third component says whether this address directly follows the one
    before it. *)
Fixpoint consecutive_ok (prev : option (Z * Z)) (l : list (Z * Z * bool)) : Prop :=
  match l with
  | [] => True
  | (a, p, c) :: l' => (c = true <-> prev = Some (a, p - 1)) /\ consecutive_ok (Some (a, p)) l'
  end.

(** At most [limit] of them; zero is no limit. *)
Definition cut {A} (limit : Z) (l : list A) : list A := if limit =? 0 then l else firstn (Z.to_nat limit) l.

(** Allocator behaviours: never moves a block; never fails. *)
Definition calm (m : mem) : Prop := ~ In KMove m.
Definition plenty (m : mem) : Prop := ~ In KFail m.

(** Requests which do not depend on where krealloc leaves the table: an
    addition which does not also set an iteration limit, and a removal which
    leaves no range of its mark, nor of the whole, open on both sides. *)
Definition steady (log : list (op * rc)) (o : op) : Prop :=
  match o with
  | OAdd e _ _ m => calm m \/ Z.odd (pe_flags e) = false
  | ORm mark pr r m =>
      calm m \/
      forall a, in_prefix 32 (r_addr r) (r_len r) a ->
        let lo := Z.min (r_min r) (r_max r) in
        let hi := Z.max (r_min r) (r_max r) in
        ~ (held log pr mark a (lo - 1) /\ held log pr mark a (hi + 1)) /\
        ~ (visible log pr a (lo - 1) /\ visible log pr a (hi + 1))
  | _ => True
  end.

(** f-args bit by bit: source address, source port, destination address,
    destination port. *)
Definition agree (fields : Z) (t1 t2 : tuple6) : Prop :=
  (Z.testbit fields 3 = true -> t6_saddr t1 = t6_saddr t2) /\
  (Z.testbit fields 2 = true -> t6_sport t1 = t6_sport t2) /\
  (Z.testbit fields 1 = true -> t6_daddr t1 = t6_daddr t2) /\
  (Z.testbit fields 0 = true -> t6_dport t1 = t6_dport t2).
Definition wt_tuple6 (t : tuple6) : Prop :=
  is_u128 (t6_saddr t) /\ is_u16 (t6_sport t) /\ is_u128 (t6_daddr t) /\ is_u16 (t6_dport t).

(** Iteration flags: 1 "set", 2 "automatic", 4 "infinite".  Zero is no limit. *)
Definition limit (flags iters size : Z) : Z :=
  if Z.testbit flags 2 then 0
  else if Z.testbit flags 1 then Z.max 1024 (Z.min 8192 (size / 128))
  else iters.
