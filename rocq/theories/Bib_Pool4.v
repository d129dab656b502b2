(** Claim C18, the pool4 side: the masks IPv6 packets come with. *)
Require Import Verif.Base Verif.Addr_Model Verif.Addr_Spec Verif.Rtrie_Model Verif.Pool4_Model Verif.Pool4_Spec Verif.Pool4_Properties Verif.Bib_Find.

(** What mask_domain_find gives is an enumeration of the addresses pool4 holds
    for the mark, up to the configured number of iterations (all conditions are
    those of [C12_enumeration_partial]). *)
Theorem C18_masks_from_pool4 : forall ops log p pr m n hash eph route k,
  Forall wt_op ops -> run pool4db_alloc [] ops = Ok (log, p) -> no_enomem log -> all_benign log ->
  (exists l, lists l (held log pr m) /\ length l = n) -> 0 < Z.of_nat n < 2^32 - 1 -> k <> KFail ->
  exists d l masks, mask_domain_find p pr m hash eph route k = Ok (Domain d) /\ offers d masks /\
    lists l (held log pr m) /\ map fst masks = cut (d_maxit d) l.
Proof.
  intros ops log p pr m n hash eph route k H1 H2 H3 H4 H5 H6 H7.
  destruct (C12_enumeration_partial ops log p pr m n hash eph route k H1 H2 H3 H4 H5 H6 H7) as (d & l & out & E & Ec & L & En & C & Co). exists d, l, out. split; [exact E|]. split; [|auto].
  split; [|exact Co]. apply En. rewrite Ec. lia.
Qed.
Print Assumptions C18_masks_from_pool4.

(** With an empty pool4, the ports 61001 to 65535 of the node's own address. *)
Theorem C18_masks_from_node : forall ops log p pr m hash eph a k,
  Forall wt_op ops -> run pool4db_alloc [] ops = Ok (log, p) -> no_enomem log ->
  (forall o, In (o, OK) log -> not_vacuous o) -> (forall pr' m' a' q', ~ held log pr' m' a' q') -> is_u32 a -> k <> KFail ->
  exists d masks, mask_domain_find p pr m hash eph (Some a) k = Ok (Domain d) /\ offers d masks /\ d_dynamic d = true /\
    lists (map fst masks) (fun a' q => a' = a /\ 61001 <= q <= 65535).
Proof.
  intros ops log p pr m hash eph a k H1 H2 H3 H4 H5 H6 H7.
  destruct (C12_enumeration_empty ops log p pr m hash eph a k H1 H2 H3 H4 H5 H6 H7) as (d & l & out & E & Ec & Ed & L & En & C & Co). exists d, out. split; [exact E|].
  split; [split; [|exact Co]; apply En; rewrite Ec; lia|]. split; [exact Ed|]. rewrite C. exact L.
Qed.
Print Assumptions C18_masks_from_node.
Example C18_masks_case : exists log p d masks, Forall wt_op ex12 /\ run pool4db_alloc [] ex12 = Ok (log, p) /\ mask_domain_find p TCP 0 1002 2 None KStay = Ok (Domain d) /\ offers d masks /\ length masks = 8%nat.
Proof.
  eexists _, _, _, _. split; [repeat constructor; vm_compute; congruence|]. split; [vm_compute; reflexivity|]. split; [vm_compute; reflexivity|].
  split; [split; [vm_compute; reflexivity|]|reflexivity]. cbn. repeat split; try congruence; try discriminate; intros [= H]; discriminate.
Qed.
