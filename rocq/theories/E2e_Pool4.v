(** C86, the pool4 side. *)
Require Import Verif.Base Verif.Addr_Model Verif.Addr_Spec Verif.Rtrie_Model Verif.Pool4_Model Verif.Pool4_Spec Verif.Pool4_Proofs Verif.Pool4_Lookup Verif.Pool4_Trees Verif.Pool4_Hist Verif.Pool4_Enum Verif.Pool4_Properties Verif.Bib_Pool4 Verif.Fsm_Model Verif.Bib_Find.
Require Import Verif.Bib_Spec Verif.Bib_Hist Verif.Bib_Properties Verif.Nat64_Model Verif.Nat64_Spec Verif.Nat64_Properties Verif.Nat64_Errors Verif.Nat64_Hairpin Verif.Nat64_Safe Verif.Pool4_Properties Verif.Pool4_Model Verif.Nat64_Pool4 Verif.E2e_Spec.

(** ** Which pool4s can be used *)
Lemma held_typed : forall ops log p pr m a q, Forall wt_op ops -> run pool4db_alloc [] ops = Ok (log, p) -> no_enomem log -> held log pr m a q -> typed4 (a, q).
Proof.
  intros ops log p pr m a q Hw H Hn Hh. pose proof (reach _ _ _ Hw H Hn) as HI. destruct (HI pr) as (((_ & O1) & _) & H2 & _).
  apply H2 in Hh. destruct Hh as (tb & E & Hi). destruct (O1 _ _ (find_in _ _ _ E)) as (_ & T2 & _). destruct Hi as (r & Hr & E1 & E2).
  rewrite Forall_forall in T2. destruct (T2 r Hr) as (A & B & _ & _ & C). split; [cbn; congruence|]. unfold is_u16. cbn. lia.
Qed.
Lemma cut_in A (lim : Z) (l : list A) x : In x (cut lim l) -> In x l.
Proof. unfold cut. destruct (lim =? 0); [auto|]. intros H. rewrite <- (firstn_skipn (Z.to_nat lim) l). apply in_or_app. auto. Qed.
(** Any whose additions did not overlap, as in C60. *)
Theorem C86_pool4 : forall ops log p g n,
  Forall wt_op ops -> run pool4db_alloc [] ops = Ok (log, p) -> no_enomem log -> all_benign log ->
  (forall pr m, exists l, lists l (held log pr m) /\ Z.of_nat (length l) < 2^32 - 1) ->
  g_pool4 g = p -> (forall a, n_route n = Some a -> is_u32 a) -> usable4 g n /\ sound g n.
Proof.
  intros ops log p g n Hw H Hn Hb Hl Ep Hr. split; [|exact (C60_pool4 ops log p g n Hw H Hn Hb Hl Ep Hr)].
  intros pr d E. rewrite Ep in E. assert (Hk : n_kro n <> KFail) by (intros X; rewrite X in E; discriminate).
  destruct (Hl pr (n_mark n)) as (l & L & Hlen). pose proof (reach _ _ _ Hw H Hn) as HI. pose proof (reach_exact _ _ _ Hw H Hn Hb) as [Hs _].
  destruct l as [|x l].
  - unfold mask_domain_find in E. destruct (n_kro n) eqn:Ek; [congruence| |]; (destruct (pool_is_empty p) eqn:Ee;
    [ destruct (n_route n) as [a|] eqn:Er; [|discriminate];
      assert (Hh : forall pr' m' a' q', ~ held log pr' m' a' q') by (intros pr' m' a' q' X; pose proof (held_not_empty _ _ _ _ _ _ HI X); congruence);
      destruct (C18_masks_from_node ops log p pr (n_mark n) (n_hash n) (n_eph n) a (n_kro n) Hw H Hn (all_benign_vac _ Hb) Hh (Hr _ eq_refl) ltac:(congruence)) as (d' & ms & E' & O & _ & Li);
      exists ms; unfold mask_domain_find in E'; rewrite Ek, Ee in E'; injection E as <-; injection E' as <-; split; [exact O|];
      intros [b q] Hi; apply (proj2 Li) in Hi; destruct Hi as [-> Hi]; split; [exact (Hr _ eq_refl)|unfold is_u16; cbn; lia]
    | exfalso; destruct (get_trees p pr) as [t|] eqn:Hg; [|discriminate]; pose proof (get_trees_of _ _ _ Hg) as [-> _];
      destruct (tree_find (n_mark n) (tmark (trees_of p pr))) as [tb|] eqn:Hf; [|discriminate];
      destruct (mark_list _ _ _ _ _ HI Hs Hf) as ((_ & L1) & _ & (T1 & _) & L4); destruct (t_ranges tb) as [|r l]; [congruence|];
      specialize (L4 r (or_introl eq_refl)); apply (proj2 L (r_addr r) (r_min r)), L1, addrs_in; exists r; split; [left; reflexivity|]; split; [reflexivity|lia] ]).
  - destruct (C18_masks_from_pool4 ops log p pr (n_mark n) (length (x :: l)) (n_hash n) (n_eph n) (n_route n) (n_kro n) Hw H Hn Hb (ex_intro _ _ (conj L eq_refl)) ltac:(cbn [length] in *; lia) Hk) as (d' & l' & ms & E' & O & Li & Em).
    exists ms. rewrite E in E'. injection E' as <-. split; [exact O|]. rewrite Em. intros [b q] Hi. apply cut_in in Hi. apply (proj2 Li) in Hi. exact (held_typed _ _ _ _ _ _ _ Hw H Hn Hi).
Qed.
Print Assumptions C86_pool4.
