(** More properties of pool4: what an addition does to the iteration limit
    (C52), ephemeral ports (C10), and the rest of the mask domain (C12). *)
Require Import Verif.Base Verif.Addr_Model Verif.Addr_Spec Verif.Rtrie_Model Verif.Pool4_Model Verif.Pool4_Spec
  Verif.Pool4_Proofs Verif.Pool4_Trees Verif.Pool4_Hist Verif.Pool4_Lookup Verif.Pool4_Properties.

Local Ltac Zify.zify_post_hook ::= idtac.

(** ** C52: an addition that brings a limit sets it *)
Lemma mark_tree_limit : forall t e n m t' m', Z.land (pe_flags e) ITERATIONS_SET <> 0 -> NoDup (map fst (tmark t)) ->
  add_to_mark_tree t e n m = Ok (OK, t', m') ->
  exists tb, tree_find (pe_mark e) (tmark t') = Some tb /\ t_maxit tb = pe_iter e /\ t_flags tb = pe_flags e.
Proof.
  intros t e n m t' m' Hf Hnd H. unfold add_to_mark_tree in H. apply Z.eqb_neq in Hf.
  destruct (tree_find (pe_mark e) (tmark t)) as [tb|] eqn:Hft.
  - destruct (pool4_add_range tb n m) as [[[r tb'] p] m1]. destruct r; [|discriminate]. rewrite Hf in H.
    destruct p; [|discriminate]. injection H as <- <-. cbn [tmark]. rewrite find_replace.
    + rewrite Z.eqb_refl. eexists. split; [reflexivity|]. unfold set_iters. rewrite Hf. auto.
    + apply in_map_iff. exists (pe_mark e, tb). split; [reflexivity|apply find_in; exact Hft].
  - destruct (draw m) as [k m1]. destruct k; [discriminate| |]; injection H as <- <-; cbn [tmark];
      (rewrite find_insert by (auto; apply find_none; exact Hft); rewrite Z.eqb_refl; eexists; split; [reflexivity|];
       unfold set_iters; rewrite Hf; auto).
Qed.
Lemma mark_tree_nodup : forall t e n m r t' m', NoDup (map fst (tmark t)) ->
  add_to_mark_tree t e n m = Ok (r, t', m') -> NoDup (map fst (tmark t')).
Proof.
  intros t e n m r t' m' Hnd H. unfold add_to_mark_tree in H.
  destruct (tree_find (pe_mark e) (tmark t)) as [tb|] eqn:Hft.
  - destruct (pool4_add_range tb n m) as [[[x tb'] p] m1]. destruct x.
    + destruct (Z.land (pe_flags e) ITERATIONS_SET =? 0); [|destruct p; [|discriminate]]; injection H as <- <- <-; cbn [tmark]; rewrite keys_replace; exact Hnd.
    + injection H as <- <- <-. cbn [tmark]. rewrite keys_replace. exact Hnd.
  - destruct (draw m) as [k m1]. destruct k; injection H as <- <- <-; cbn [tmark]; auto;
      (apply nodup_insert; [exact Hnd|apply find_none; exact Hft]).
Qed.
Lemma addr_tree_mark : forall t n m r t' m', add_to_addr_tree t n m = (r, t', m') -> tmark t' = tmark t.
Proof.
  intros t n m r t' m' H. unfold add_to_addr_tree in H. destruct (tree_find (r_addr n) (taddr t)).
  - destruct (pool4_add_range t0 n m) as [[[x tb'] p] m1]. injection H as <- <- <-. reflexivity.
  - destruct (draw m) as [k m1]. destruct k; injection H as <- <- <-; reflexivity.
Qed.
Lemma addrs_limit : forall addrs t e lo hi m t' m', Z.land (pe_flags e) ITERATIONS_SET <> 0 -> NoDup (map fst (tmark t)) ->
  addrs <> [] \/ (exists tb, tree_find (pe_mark e) (tmark t) = Some tb /\ t_maxit tb = pe_iter e /\ t_flags tb = pe_flags e) ->
  add_addrs t e lo hi addrs m = Ok (OK, t', m') ->
  exists tb, tree_find (pe_mark e) (tmark t') = Some tb /\ t_maxit tb = pe_iter e /\ t_flags tb = pe_flags e.
Proof.
  induction addrs as [|a addrs IH]; intros t e lo hi m t' m' Hf Hnd Hor H; cbn [add_addrs] in H.
  - injection H as <- <-. destruct Hor as [C|Hor]; [congruence|exact Hor].
  - destruct (add_to_mark_tree t e (Rg a 32 lo hi) m) as [[[r1 t1] m1]| |] eqn:E1; [|discriminate..]. cbn [bind] in H.
    destruct r1; [|discriminate].
    destruct (add_to_addr_tree t1 (Rg a 32 lo hi) m1) as [[r2 t2] m2] eqn:E2. destruct r2; [|discriminate].
    pose proof (addr_tree_mark _ _ _ _ _ _ E2) as E3.
    eapply IH; [exact Hf| |right|exact H].
    + rewrite E3. eapply mark_tree_nodup; eassumption.
    + rewrite E3. eapply mark_tree_limit; eassumption.
Qed.

Lemma table_limit : forall p pr m hash eph route k d tb flags iters,
  mask_domain_find p pr m hash eph route k = Ok (Domain d) ->
  tree_find m (tmark (trees_of p pr)) = Some tb -> pr <> OTHER -> t_maxit tb = iters -> t_flags tb = flags -> Z.odd flags = true ->
  max_iterations_validate flags iters = OK ->
  d_maxit d = limit flags iters (d_count d) /\ (Z.testbit flags 1 = false -> Z.testbit flags 2 = false -> d_maxit d <> 0).
Proof.
  intros p pr m hash eph route k d tb flags iters Hf Hfm Hp <- <- Hodd Hv.
  set (flags := t_flags tb) in *. set (iters := t_maxit tb) in *.
  assert (B0 : (Z.land flags ITERATIONS_SET =? 0) = false).
  { unfold ITERATIONS_SET. change 1 with (2^0). rewrite land_bit by lia. rewrite Z.bit0_odd, Hodd. reflexivity. }
  assert (B1 : (Z.land flags ITERATIONS_AUTO =? 0) = negb (Z.testbit flags 1)) by (apply (land_bit flags 1); lia).
  assert (B2 : (Z.land flags ITERATIONS_INFINITE =? 0) = negb (Z.testbit flags 2)) by (apply (land_bit flags 2); lia).
  unfold max_iterations_validate in Hv. rewrite B0, B1, B2 in Hv. rewrite !negb_involutive in Hv.
  assert (He : pool_is_empty p = false).
  { destruct (pool_is_empty p) eqn:He; [|reflexivity]. rewrite empty_iff in He. rewrite He in Hfm. discriminate. }
  assert (Hg' : get_trees p pr = Some (trees_of p pr)) by (destruct pr; try reflexivity; congruence).
  assert (Ed : d_maxit d = compute_max_iterations tb /\ d_count d = t_count tb).
  { unfold mask_domain_find in Hf. rewrite He, Hg', Hfm in Hf. destruct k; [discriminate| |];
      (destruct (t_count tb =? 0); [discriminate|]; destruct (place _ _ _) as [[i port]|]; [|discriminate]; injection Hf as <-; auto). }
  destruct Ed as [-> ->]. unfold compute_max_iterations, limit. fold flags iters. rewrite B1, B2, !negb_involutive.
  rewrite Z.shiftr_div_pow2 by lia. change (2^7) with 128.
  destruct (Z.testbit flags 2), (Z.testbit flags 1); cbn [negb andb] in *; try discriminate.
  - split; [reflexivity|]. discriminate.
  - split; [|discriminate]. destruct (t_count tb / 128 <? 1024) eqn:E1; [lia|]. destruct (8192 <? t_count tb / 128) eqn:E2; lia.
  - split; [reflexivity|]. intros _ _. destruct (iters =? 0) eqn:E; [discriminate|]. lia.
Qed.

Theorem C52_limit_added : forall ops log p e eph0 force m p' hash eph route k d,
  Forall wt_op ops -> run pool4db_alloc [] ops = Ok (log, p) -> no_enomem log ->
  wt_op (OAdd e eph0 force m) -> Z.odd (pe_flags e) = true ->
  step p (OAdd e eph0 force m) = Ok (OK, p') ->
  mask_domain_find p' (pe_proto e) (pe_mark e) hash eph route k = Ok (Domain d) ->
  d_maxit d = limit (pe_flags e) (pe_iter e) (d_count d) /\
  (Z.testbit (pe_flags e) 1 = false -> Z.testbit (pe_flags e) 2 = false -> d_maxit d <> 0).
Proof.
  intros ops log p e eph0 force m p' hash eph route k d Hw H Hn Ho Hodd Hst Hf.
  pose proof (reach _ _ _ Hw H Hn) as HI.
  cbn [step] in Hst. unfold pool4db_add in Hst.
  destruct (prefix4_validate (range_prefix (pe_range e))) eqn:Hva; [|discriminate].
  destruct (max_iterations_validate (pe_flags e) (pe_iter e)) eqn:Hv; [|discriminate].
  destruct (ephemeral_clash e eph0 force); [discriminate|].
  destruct (get_trees p (pe_proto e)) as [t|] eqn:Hg; [|discriminate]. apply get_trees_of in Hg. destruct Hg as [-> Hp].
  destruct (add_ports e) as [lo hi].
  destruct (add_addrs _ e lo hi _ m) as [[[x t'] m']| |] eqn:Ea; [|discriminate..]. cbn [bind] in Hst. injection Hst as -> <-.
  assert (Hset : Z.land (pe_flags e) ITERATIONS_SET <> 0).
  { apply Z.eqb_neq. unfold ITERATIONS_SET. change 1 with (2^0). rewrite land_bit by lia. rewrite Z.bit0_odd, Hodd. reflexivity. }
  destruct Ho as (_ & _ & _ & Hr).
  assert (Hne : prefix4_addrs (range_prefix (pe_range e)) <> []).
  { intros E. assert (Hi : In (r_addr (pe_range e)) (prefix4_addrs (range_prefix (pe_range e)))).
    { apply prefix4_addrs_in; [apply range_prefix_wt; exact Hr|exact Hva|]. unfold range_prefix. cbn [p4_addr p4_len]. apply in_prefix_refl || (unfold in_prefix; auto). }
    rewrite E in Hi. destruct Hi. }
  destruct (addrs_limit _ _ _ _ _ _ _ _ Hset (proj1 (proj1 (proj1 (HI (pe_proto e))))) (or_introl Hne) Ea) as (tb & F1 & F2 & F3).
  eapply table_limit; [exact Hf| |exact Hp|exact F2|exact F3|exact Hodd|exact Hv].
  rewrite trees_set_same by exact Hp. exact F1.
Qed.
Print Assumptions C52_limit_added.
Example C52_limit_added_witness : exists log p p' d, run pool4db_alloc [] ex12 = Ok (log, p) /\
  step p (OAdd (PEntry 0 77 1 TCP (Rg 0xc0000209 32 5 6)) None false []) = Ok (OK, p') /\
  mask_domain_find p' TCP 0 3 4 None KStay = Ok (Domain d) /\ d_maxit d = 77.
Proof. eexists _, _, _, _. repeat (split; [vm_compute; reflexivity|]). reflexivity. Qed.

(** ** C10: ephemeral ports are refused without --force *)
(** An accepted addition holds no port of the kernel's own, unless forced. *)
Theorem C10_ephemeral : forall p e emin emax m p' a q,
  wt_op (OAdd e (Some (emin, emax)) false m) -> pe_proto e = TCP \/ pe_proto e = UDP ->
  step p (OAdd e (Some (emin, emax)) false m) = Ok (OK, p') ->
  covers (pe_range e) a q -> port_ok (pe_proto e) q -> ~ emin <= q <= emax.
Proof.
  intros p e emin emax m p' a q (_ & _ & _ & _ & _ & W1 & W2) Hp H (_ & Hq) Hk He. cbn [step] in H. unfold pool4db_add in H.
  destruct (prefix4_validate (range_prefix (pe_range e))); [|discriminate].
  destruct (max_iterations_validate (pe_flags e) (pe_iter e)); [|discriminate].
  assert (C : ephemeral_clash e (Some (emin, emax)) false = true).
  { unfold ephemeral_clash, add_ports. unfold is_u16 in *. change (2^16) with 65536 in *.
    destruct Hp as [Hp|Hp]; rewrite Hp in *; cbn [port_ok negb] in *;
    (destruct (Z.min (r_min (pe_range e)) (r_max (pe_range e)) =? 0) eqn:E; lia). }
  rewrite C in H. discriminate.
Qed.
(** Forced, or away from those ports, they make no difference. *)
Theorem C10_ephemeral_only : forall p e eph force m,
  wt_op (OAdd e eph force m) ->
  force = true \/ eph = None \/ (exists emin emax, eph = Some (emin, emax) /\ (forall a q, covers (pe_range e) a q -> ~ emin <= q <= emax) /\ emin <= emax) ->
  prefix4_validate (range_prefix (pe_range e)) = OK -> not_vacuous (OAdd e eph force m) ->
  step p (OAdd e eph force m) = step p (OAdd e None true m).
Proof.
  intros p e eph force m (_ & _ & _ & W0 & _ & W1 & W2) Hor Hv Hnv. cbn [step]. unfold pool4db_add.
  assert (C : forall force' eph', force' = true \/ eph' = None -> ephemeral_clash e eph' force' = false).
  { intros f' e' [->| ->]; unfold ephemeral_clash; destruct (add_ports e), (pe_proto e); try reflexivity; destruct e' as [[]|]; reflexivity. }
  rewrite (C true None) by auto. replace (ephemeral_clash e eph force) with false; [reflexivity|]. symmetry.
  destruct Hor as [->|[->|(emin & emax & -> & Hc & Hle)]]; [apply C; auto..|].
  destruct force; [apply C; auto|].
  assert (Hpre : in_prefix 32 (r_addr (pe_range e)) (r_len (pe_range e)) (r_addr (pe_range e))).
  { unfold in_prefix. auto. }
  unfold is_u16 in *. change (2^16) with 65536 in *. cbn [not_vacuous] in Hnv.
  unfold ephemeral_clash, add_ports. destruct (pe_proto e); cbn [negb andb port_ok] in *; try reflexivity.
  all: set (mn := r_min (pe_range e)) in *; set (mx := r_max (pe_range e)) in *.
  all: destruct (emin <=? Z.max mn mx) eqn:E1; [|reflexivity];
       destruct (Z.leb (if Z.min mn mx =? 0 then 1 else Z.min mn mx) emax) eqn:E2; [|reflexivity]; exfalso;
       apply (Hc (r_addr (pe_range e)) (Z.max emin (Z.min mn mx))); [split; [exact Hpre|]|];
       fold mn mx; destruct (Z.min mn mx =? 0) eqn:E3; lia.
Qed.
Print Assumptions C10_ephemeral.
Print Assumptions C10_ephemeral_only.
Example C10_ephemeral_witness :
  step pool4db_alloc (OAdd (tcp_entry 0 0xc0000209 32 60000 62000) (Some (32768, 60999)) false []) = Ok (Err EINVAL, pool4db_alloc) /\
  exists p', step pool4db_alloc (OAdd (tcp_entry 0 0xc0000209 32 61000 62000) (Some (32768, 60999)) false []) = Ok (OK, p').
Proof. split; [vm_compute; reflexivity|]. eexists. vm_compute. reflexivity. Qed.

(** ** C12: membership in the domain, and where the next search begins *)
(** The domain of a mark matches exactly what the mark holds. *)
Theorem C12_matches : forall ops log p pr m hash eph route k d a q,
  Forall wt_op ops -> run pool4db_alloc [] ops = Ok (log, p) -> no_enomem log ->
  mask_domain_find p pr m hash eph route k = Ok (Domain d) -> d_dynamic d = false ->
  (mask_domain_matches d a q = true <-> held log pr m a q).
Proof.
  intros ops log p pr m hash eph route k d a q Hw H Hn Hf Hd. pose proof (reach _ _ _ Hw H Hn) as HI.
  unfold mask_domain_find in Hf. destruct k; [discriminate| |];
  (destruct (pool_is_empty p); [destruct route; [|discriminate]; injection Hf as <-; discriminate Hd|];
   destruct (get_trees p pr) as [t|] eqn:Hg; [|discriminate]; apply get_trees_of in Hg; destruct Hg as [-> Hp];
   destruct (tree_find m (tmark (trees_of p pr))) as [tb|] eqn:Hft; [|discriminate];
   destruct (t_count tb =? 0); [discriminate|]; destruct (place _ _ _) as [[i port]|]; [|discriminate]; injection Hf as <-;
   unfold mask_domain_matches; cbn [d_ranges]; rewrite existsb_exists;
   destruct (HI pr) as (_ & H2 & _); rewrite <- (H2 m a q); split;
   [intros (r & Hi & Hb); exists tb; split; [exact Hft|]; exists r; split; [exact Hi|]; unfold rin; lia
   |intros (tb' & E & r & Hi & Hr); rewrite Hft in E; injection E as <-; exists r; split; [exact Hi|]; unfold rin in Hr; lia]).
Qed.
(** The domain of the empty pool4 matches the default ports of its address. *)
Theorem C12_matches_empty : forall p pr m hash eph route k d a q,
  mask_domain_find p pr m hash eph route k = Ok (Domain d) -> d_dynamic d = true ->
  (mask_domain_matches d a q = true <-> route = Some a /\ 61001 <= q <= 65535).
Proof.
  intros p pr m hash eph route k d a q Hf Hd. unfold mask_domain_find in Hf. destruct k; [discriminate| |];
  (destruct (pool_is_empty p);
   [destruct route as [x|]; [|discriminate]; injection Hf as <-; unfold mask_domain_matches; cbn [find_empty d_ranges existsb r_addr r_min r_max];
    unfold DEFAULT_POOL4_MIN_PORT, DEFAULT_POOL4_MAX_PORT; split; [intros Hb; split; [f_equal|]; lia|intros [E Hb]; injection E as ->; lia]
   |destruct (get_trees p pr); [|discriminate]; destruct (tree_find m _) as [tb|]; [|discriminate]; destruct (t_count tb =? 0); [discriminate|];
    destruct (place _ _ _) as [[i port]|]; [|discriminate]; injection Hf as <-; discriminate Hd]).
Qed.

(** [n] calls to mask_domain_next. *)
Fixpoint nexts (n : nat) (d : domain) : res domain :=
  match n with O => Ok d | S n' => let! x := mask_domain_next d in nexts n' (fst x) end.
Lemma next_counter : forall d d' x, mask_domain_next d = Ok (d', x) -> d_counter d' = u32 (d_counter d + 1).
Proof.
  intros d d' x H. unfold mask_domain_next in H. cbn [d_mark d_count d_counter d_maxit d_ranges d_cur d_port d_dynamic] in H.
  destruct (d_count d <? u32 (d_counter d + 1)); [injection H as <- <-; reflexivity|].
  destruct (negb (d_maxit d =? 0) && (d_maxit d <? u32 (d_counter d + 1))); [injection H as <- <-; reflexivity|].
  destruct (nth_error (d_ranges d) (d_cur d)); [|discriminate]. destruct (r_max r <? d_port d + 1).
  - destruct (nth_error (d_ranges d) _); [|discriminate]. injection H as <- <-. reflexivity.
  - injection H as <- <-. reflexivity.
Qed.
(** After a search that asked [n] times the next ephemeral has advanced by
    exactly [n] (RFC 6056 algorithm 3; an atomic_t wraps around). *)
Theorem C12_commit : forall n d d' eph, d_counter d = 0 -> nexts n d = Ok d' ->
  mask_domain_commit d' eph mod 2^32 = (eph + Z.of_nat n) mod 2^32 /\ - 2^31 <= mask_domain_commit d' eph < 2^31.
Proof.
  assert (G : forall n d d', nexts n d = Ok d' -> is_u32 (d_counter d) -> d_counter d' = u32 (d_counter d + Z.of_nat n)).
  { induction n as [|n IH]; intros d d' H Hu; cbn [nexts] in H.
    - injection H as <-. rewrite Z.add_0_r. unfold u32, is_u32 in *. symmetry. apply Z.mod_small. exact Hu.
    - destruct (mask_domain_next d) as [[d1 x]| |] eqn:E; [|discriminate..]. cbn [bind fst] in H. apply next_counter in E.
      apply IH in H; [|rewrite E; apply u32_pos]. rewrite H, E, u32_idem. f_equal. lia. }
  intros n d d' eph H0 H. apply G in H; [|rewrite H0; unfold is_u32; lia]. unfold mask_domain_commit. rewrite H, H0. unfold s32, u32.
  change (2^32) with 4294967296. change (2^31) with 2147483648.
  set (v := (eph + (0 + Z.of_nat n) mod 4294967296) mod 4294967296).
  assert (Hv : v = (eph + Z.of_nat n) mod 4294967296) by (unfold v; rewrite Zplus_mod_idemp_r; reflexivity).
  assert (Hb : 0 <= v < 4294967296) by (unfold v; apply Z.mod_pos_bound; lia).
  assert (Hm : v mod 4294967296 = v) by (apply Z.mod_small; exact Hb). rewrite <- Hv.
  destruct (v <? 2147483648) eqn:E; [split; [exact Hm|lia]|]. split; [|lia].
  replace (v - 4294967296) with (v + (-1) * 4294967296) by lia. rewrite Z_mod_plus_full. exact Hm.
Qed.
Print Assumptions C12_matches.
Print Assumptions C12_matches_empty.
Print Assumptions C12_commit.
Example C12_commit_witness : exists log p d d', run pool4db_alloc [] ex12 = Ok (log, p) /\
  mask_domain_find p TCP 0 3 4 None KStay = Ok (Domain d) /\ d_counter d = 0 /\ nexts 5 d = Ok d' /\ mask_domain_commit d' 2147483647 = -2147483644 /\
  mask_domain_matches d 0xc0000200 102 = true /\ mask_domain_matches d 0xc0000200 103 = false.
Proof. eexists _, _, _, _. repeat (split; [vm_compute; reflexivity|]). vm_compute. reflexivity. Qed.
