(** Claim C60, the pool4 side; and a translator for the cases. *)
Require Import Verif.Base Verif.Addr_Model Verif.Addr_Spec Verif.Rtrie_Model Verif.Pool4_Model Verif.Pool4_Spec Verif.Pool4_Proofs Verif.Pool4_Lookup Verif.Pool4_Trees Verif.Pool4_Hist Verif.Pool4_Enum Verif.Pool4_Properties Verif.Bib_Pool4 Verif.Fsm_Model Verif.Bib_Find.
Require Import Verif.Bib_Spec Verif.Bib_Hist Verif.Bib_Properties Verif.Nat64_Model Verif.Nat64_Spec Verif.Nat64_Properties Verif.Nat64_Errors Verif.Nat64_Hairpin Verif.Nat64_Safe Verif.Pool4_Properties Verif.Pool4_Model.

(** Any pool4 whose additions did not overlap can be used, with any hash, counter and mark. *)
Theorem C60_pool4 : forall ops log p g n,
  Forall wt_op ops -> run pool4db_alloc [] ops = Ok (log, p) -> no_enomem log -> all_benign log ->
  (forall pr m, exists l, lists l (held log pr m) /\ Z.of_nat (length l) < 2^32 - 1) ->
  g_pool4 g = p -> (forall a, n_route n = Some a -> is_u32 a) -> sound g n.
Proof.
  intros ops log p g n Hw H Hn Hb Hl Ep Hr. split; [|split].
  2:{ intros pr. rewrite Ep. destruct (n_kro n) eqn:Ek; [eexists; reflexivity| |];
      (destruct (Hl pr (n_mark n)) as (l & L & Hlen); pose proof (reach _ _ _ Hw H Hn) as HI; pose proof (reach_exact _ _ _ Hw H Hn Hb) as [Hs Hx];
       unfold mask_domain_find; destruct (pool_is_empty p); [destruct (n_route n); eexists; reflexivity|]; destruct (get_trees p pr) as [t|] eqn:Hg; [|eexists; reflexivity]; pose proof (get_trees_of _ _ _ Hg) as [-> _];
       destruct (tree_find (n_mark n) (tmark (trees_of p pr))) as [tb|] eqn:Hf; [|eexists; reflexivity];
       destruct (mark_list _ _ _ _ _ HI Hs Hf) as (L1 & L2 & (T1 & T2 & T3 & L3) & L4); pose proof (lists_length _ _ _ L L1) as EL; specialize (Hx pr _ tb Hf);
       rewrite (u32_small _ L3) in Hx; assert (0 < total (t_ranges tb)) by (destruct (t_ranges tb) as [|r l']; [congruence|]; specialize (L4 r (or_introl eq_refl));
         destruct (addrs (r :: l')) eqn:Ea; [assert (X : In (r_addr r, r_min r) (addrs (r :: l'))) by (apply addrs_in; exists r; split; [left; reflexivity|]; split; [reflexivity|lia]); rewrite Ea in X; destruct X|cbn [length] in L2; lia]);
       rewrite u32_small in Hx by (unfold is_u32; change (2^32) with 4294967296 in *; lia); replace (t_count tb =? 0) with false by lia; eexists; reflexivity). }
  2:{ intros pr a q. rewrite Ep. apply (C14_memory_partial ops log p OFlush Hw H Hn). }
  intros pr d E. rewrite Ep in E. assert (Hk : n_kro n <> KFail) by (intros X; rewrite X in E; discriminate).
  destruct (Hl pr (n_mark n)) as (l & L & Hlen). pose proof (reach _ _ _ Hw H Hn) as HI. pose proof (reach_exact _ _ _ Hw H Hn Hb) as [Hs _].
  destruct l as [|x l].
  - unfold mask_domain_find in E. destruct (n_kro n) eqn:Ek; [congruence| |]; (destruct (pool_is_empty p) eqn:Ee;
    [ destruct (n_route n) as [a|] eqn:Er; [|discriminate];
      assert (Hh : forall pr' m' a' q', ~ held log pr' m' a' q') by (intros pr' m' a' q' X; pose proof (held_not_empty _ _ _ _ _ _ HI X); congruence);
      destruct (C18_masks_from_node ops log p pr (n_mark n) (n_hash n) (n_eph n) a (n_kro n) Hw H Hn (all_benign_vac _ Hb) Hh (Hr _ eq_refl) ltac:(congruence)) as (d' & ms & E' & O & _);
      exists ms; unfold mask_domain_find in E'; rewrite Ek, Ee in E'; injection E as <-; injection E' as <-; exact O
    | exfalso; destruct (get_trees p pr) as [t|] eqn:Hg; [|discriminate]; pose proof (get_trees_of _ _ _ Hg) as [-> _];
      destruct (tree_find (n_mark n) (tmark (trees_of p pr))) as [tb|] eqn:Hf; [|discriminate];
      destruct (mark_list _ _ _ _ _ HI Hs Hf) as ((_ & L1) & _ & (T1 & _) & L4); destruct (t_ranges tb) as [|r l]; [congruence|];
      specialize (L4 r (or_introl eq_refl)); apply (proj2 L (r_addr r) (r_min r)), L1, addrs_in; exists r; split; [left; reflexivity|]; split; [reflexivity|lia] ]).
  - destruct (C18_masks_from_pool4 ops log p pr (n_mark n) (length (x :: l)) (n_hash n) (n_eph n) (n_route n) (n_kro n) Hw H Hn Hb (ex_intro _ _ (conj L eq_refl)) ltac:(cbn [length] in *; lia) Hk) as (d' & l' & ms & E' & O & _).
    exists ms. rewrite E in E'. injection E' as <-. exact O.
Qed.
Print Assumptions C60_pool4.

(** ** A translator with pool6 64:ff9b::/96 and 192.0.2.1, ports 5000 to 5002, in pool4 *)
Definition ports3 (pr : proto) : op := OAdd (PEntry 0 0 0 pr (Rg four 32 5000 5002)) None false [].
Definition pool4_ops : list op := [ports3 TCP; ports3 UDP; ports3 ICMP].
Definition pool4_3 : pool4 := match run pool4db_alloc [] pool4_ops with Ok (_, p) => p | _ => pool4db_alloc end.
Definition nat64 : xconf := XConf conf (P6 (p6 0) 96) false pool4_3.
Definition world (now : Z) : env := Env [] 0 7 1002 2 None KStay now [].
Example nat64_sound : forall now, sound nat64 (world now).
Proof.
  intros now. apply (C60_pool4 pool4_ops [(ports3 ICMP, OK); (ports3 UDP, OK); (ports3 TCP, OK)] pool4_3 nat64 (world now)).
  - repeat constructor; vm_compute; congruence.
  - vm_compute. reflexivity.
  - intros o Hi. cbn in Hi. repeat (destruct Hi as [E|Hi]; [discriminate|]). destruct Hi.
  - cbn. unfold covers, in_prefix. cbn. split; [|split; [|split; [|exact Logic.I]]]; intros _; (split; [discriminate || exact Logic.I|]); intros a Ha; left; intros q Hq H; intuition discriminate.
  - intros pr m. set (l := [(four, 5000); (four, 5001); (four, 5002)]).
    assert (L : lists l (fun a q => a = four /\ 5000 <= q <= 5002)).
    { split; [repeat constructor; cbn; intuition congruence|]. intros a q. cbn. split.
      - intros [X|[X|[X|[]]]]; injection X as <- <-; lia.
      - intros [-> X]. assert (q = 5000 \/ q = 5001 \/ q = 5002) as [->|[->| ->]] by lia; auto. }
    assert (C : forall a q, covers (Rg four 32 5000 5002) a q <-> a = four /\ 5000 <= q <= 5002).
    { intros a q. unfold covers, in_prefix. cbn. rewrite !Z.div_1_r. intuition lia. }
    destruct (Z.eq_dec m 0) as [->|Nm].
    + destruct pr; [exists l|exists l|exists l|exists []]; (split; [|cbn; lia]); (split; [try exact (proj1 L); constructor|]); intros a q; try (rewrite (proj2 L a q));
        cbn -[covers Z.pow]; rewrite !C; unfold port_ok; cbn [In]; intuition (try discriminate; try lia).
    + exists []. split; [|cbn; lia]. split; [constructor|]. intros a q. cbn. split; [intros []|]. intuition congruence.
  - reflexivity.
  - intros a X. discriminate.
Qed.
