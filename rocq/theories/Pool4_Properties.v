(** Properties C10-C14, C50-C52: pool4. *)
Require Import Verif.Base Verif.Addr_Model Verif.Addr_Spec Verif.Addr_Proofs Verif.Rtrie_Model Verif.Paging.
Require Import Verif.Pool4_Model Verif.Pool4_Spec Verif.Pool4_Proofs Verif.Pool4_Trees Verif.Pool4_Hist Verif.Pool4_Lookup
  Verif.Pool4_Enum Verif.Pool4_Safe Verif.Pool4_Listing.
Local Ltac Zify.zify_post_hook ::= idtac.

Lemma reach : forall ops log p, Forall wt_op ops -> run pool4db_alloc [] ops = Ok (log, p) -> no_enomem log -> PInv log p.
Proof. intros. eapply run_ok; eauto. apply PInv_init. Qed.

Lemma start : psolid pool4db_alloc /\ pexact pool4db_alloc.
Proof. split; intros pr k tb Hi; destruct pr; [destruct Hi..| | | |]; discriminate. Qed.
Lemma reach_solid : forall ops log p, Forall wt_op ops -> run pool4db_alloc [] ops = Ok (log, p) -> no_enomem log ->
  (forall o, In (o, OK) log -> not_vacuous o) -> psolid p.
Proof. intros ops log p Hw H Hn Hv. exact (run_solid ops _ [] log p PInv_init Hw H Hn Hv (proj1 start)). Qed.
Lemma reach_exact : forall ops log p, Forall wt_op ops -> run pool4db_alloc [] ops = Ok (log, p) -> no_enomem log -> all_benign log -> psolid p /\ pexact p.
Proof.
  intros ops log p Hw H Hn Hv. split; [eapply reach_solid; eauto; apply all_benign_vac; exact Hv|].
  exact (run_exact ops _ [] log p PInv_init Hw H Hn Hv (proj1 start) (proj2 start)).
Qed.

Lemma run_log : forall ops p log log' p', run p log ops = Ok (log', p') -> forall o r, In (o, r) log' -> In (o, r) log \/ In o ops.
Proof.
  induction ops as [|o ops IH]; intros p log log' p' H o' r Hi; cbn [run] in H.
  - injection H as <- <-. auto.
  - destruct (step p o) as [[x p1]| |]; cbn [bind] in H; try discriminate.
    destruct (IH _ _ _ _ H _ _ Hi) as [[E|Hi']|Hi']; [injection E as -> ->|..]; cbn [In]; auto.
Qed.

Lemma one_mark : forall log m pr a q, (forall o r, In (o, r) log -> op_mark o = Some m \/ op_mark o = None) ->
  (visible log pr a q <-> held log pr m a q).
Proof.
  induction log as [|[o r] log IH]; intros m pr a q H; [reflexivity|].
  assert (IH' : visible log pr a q <-> held log pr m a q) by (apply IH; intros o' r' Hi; apply (H o' r'); right; exact Hi).
  specialize (H o r (or_introl eq_refl)).
  destruct o; cbn [visible held op_mark] in *; destruct r; try exact IH'.
  - rewrite IH'. destruct H as [H|H]; [injection H as H|discriminate]. clear - H. tauto.
  - rewrite IH'. destruct H as [H|H]; [injection H as H|discriminate]. clear - H. tauto.
  - tauto.
  - tauto.
Qed.

(** ** C10 *)
(** All requests under one mark: an address is in pool4 iff it was added and
    not removed since. *)
Theorem C10_contents : forall ops m log p ifas pr a q,
  Forall wt_op ops -> Forall (fun o => op_mark o = Some m \/ op_mark o = None) ops ->
  run pool4db_alloc [] ops = Ok (log, p) -> no_enomem log ->
  (exists pr' a' q', held log pr' m a' q') ->
  exists b, pool4db_contains p ifas pr a q = Ok b /\ (b = true <-> held log pr m a q).
Proof.
  intros ops m log p ifas pr a q Hw Hm H Hn (pr' & a' & q' & Hh). pose proof (reach _ _ _ Hw H Hn) as HI.
  destruct (contains_ok log p ifas pr a q HI (held_not_empty _ _ _ _ _ _ HI Hh)) as (b & E & Hb).
  exists b. split; [exact E|]. rewrite Hb. apply one_mark. intros o r Hi.
  destruct (run_log _ _ _ _ _ H _ _ Hi) as [[]|Hi']. rewrite Forall_forall in Hm. apply Hm. exact Hi'.
Qed.
Print Assumptions C10_contents.

(** Nothing held: the ephemeral-port default of the interfaces applies. *)
Theorem C10_contents_empty : forall ops log p ifas pr a q,
  Forall wt_op ops -> run pool4db_alloc [] ops = Ok (log, p) -> no_enomem log ->
  (forall o, In (o, OK) log -> not_vacuous o) -> (forall pr' m' a' q', ~ held log pr' m' a' q') ->
  exists b, pool4db_contains p ifas pr a q = Ok b /\ (b = true <-> 61001 <= q /\ In (a, true) ifas).
Proof.
  intros ops log p ifas pr a q Hw H Hn Hv Hh. pose proof (reach _ _ _ Hw H Hn) as HI.
  pose proof (reach_solid _ _ _ Hw H Hn Hv) as Hs.
  unfold pool4db_contains. rewrite (solid_empty _ _ HI Hs Hh). eexists. split; [reflexivity|].
  unfold pool4empty_contains, DEFAULT_POOL4_MIN_PORT. destruct (q <? 61001) eqn:E.
  - split; [discriminate|lia].
  - rewrite existsb_exists. split.
    + intros ([x u] & Hi & Hx). cbn [fst snd] in Hx. split; [lia|]. apply andb_prop in Hx. destruct Hx as [-> Hx]. apply Z.eqb_eq in Hx. congruence.
    + intros [_ Hi]. exists (a, true). split; [exact Hi|]. cbn. apply Z.eqb_refl.
Qed.
Print Assumptions C10_contents_empty.

(** The ranges of every mark, and of every address, stay sorted and apart. *)
Theorem C10_sorted : forall ops log p pr t k tb,
  Forall wt_op ops -> run pool4db_alloc [] ops = Ok (log, p) -> no_enomem log -> get_trees p pr = Some t ->
  tree_find k (tmark t) = Some tb \/ tree_find k (taddr t) = Some tb -> ordered (t_ranges tb) /\ t_ranges tb <> [].
Proof.
  intros ops log p pr t k tb Hw H Hn Hg Hf. pose proof (reach _ _ _ Hw H Hn) as HI.
  apply get_trees_of in Hg. destruct Hg as [-> _]. destruct (HI pr) as (((_ & O1) & (_ & O2) & _) & _).
  destruct Hf as [Hf|Hf]; apply find_in in Hf; [apply O1 in Hf|apply O2 in Hf]; destruct Hf as (T1 & _ & T3 & _); auto.
Qed.
Print Assumptions C10_sorted.

Definition tcp_entry (mark a len lo hi : Z) : pool4_entry := PEntry mark 0 0 TCP (Rg a len lo hi).
Definition ex10 := [OAdd (tcp_entry 7 0xc0000201 32 100 200) (Some (32768, 60999)) false [];
  OAdd (tcp_entry 7 0xc0000200 31 150 300) None false []; ORm 7 TCP (Rg 0xc0000200 31 180 120) [];
  OAdd (tcp_entry 7 0xc0000201 32 40000 50000) (Some (32768, 60999)) false []].
Example C10_contents_witness : Forall wt_op ex10 /\ Forall (fun o => op_mark o = Some 7 \/ op_mark o = None) ex10 /\
  exists log p, run pool4db_alloc [] ex10 = Ok (log, p) /\ no_enomem log /\ held log TCP 7 0xc0000201 110 /\
    map snd log = [Err EINVAL; OK; OK; OK] /\
    pool4db_contains p [] TCP 0xc0000201 119 = Ok true /\ pool4db_contains p [] TCP 0xc0000201 120 = Ok false /\
    pool4db_contains p [] TCP 0xc0000201 180 = Ok false /\ pool4db_contains p [] TCP 0xc0000200 300 = Ok true.
Proof.
  split; [repeat constructor; vm_compute; congruence|]. split; [repeat constructor|].
  eexists _, _. split; [vm_compute; reflexivity|]. split.
  { intros o Hi. cbn in Hi. repeat (destruct Hi as [E|Hi]; [discriminate|]). destruct Hi. }
  split.
  { cbn. unfold covers, in_prefix, port_ok. cbn. split; [right; left|].
    - split; [reflexivity|]. split; [reflexivity|]. split; [|discriminate]. split; [reflexivity|lia].
    - intros (_ & _ & _ & [?|?]); lia. }
  repeat split; vm_compute; reflexivity.
Qed.
Example C10_contents_empty_witness : exists log p, run pool4db_alloc [] [OAdd (tcp_entry 7 0xc0000201 32 100 200) None false []; OFlush] = Ok (log, p) /\
  (forall pr' m' a' q', ~ held log pr' m' a' q') /\
  pool4db_contains p [(0xc0000263, true)] TCP 0xc0000263 61001 = Ok true.
Proof. eexists _, _. split; [vm_compute; reflexivity|]. split; [intros pr' m' a' q' H; exact H|vm_compute; reflexivity]. Qed.

(** ** C11 *)
Lemma mark_list : forall log p pr m tb, PInv log p -> psolid p -> tree_find m (tmark (trees_of p pr)) = Some tb ->
  lists (addrs (t_ranges tb)) (held log pr m) /\ Z.of_nat (length (addrs (t_ranges tb))) = total (t_ranges tb) /\ tab_ok tb /\ solidr (t_ranges tb).
Proof.
  intros log p pr m tb HI Hs Hf. destruct (HI pr) as (((_ & O1) & _) & H2 & _). destruct (O1 _ _ (find_in _ _ _ Hf)) as (T1 & T2 & T3 & T4).
  split; [|split; [apply addrs_len; exact T2|split; [split; auto|exact (Hs pr m tb (find_in _ _ _ Hf))]]].
  split; [apply addrs_nodup; auto|]. intros a q. rewrite addrs_in, <- H2. unfold tin. split; [eauto|].
  intros (tb2 & E & Hi). congruence.
Qed.

Lemma lists_length : forall l1 l2 P, lists l1 P -> lists l2 P -> length l1 = length l2.
Proof.
  intros l1 l2 P [N1 H1] [N2 H2]. apply Nat.le_antisymm; apply NoDup_incl_length; auto; intros [a q] Hi; [apply H2, H1|apply H1, H2]; exact Hi.
Qed.

(** When no addition overlaps or touches what its mark already holds without
    being contained in it, and no removal punches a hole, the size kept for
    each mark is the number of addresses it holds (as a 32-bit number), so
    there is no division by zero unless that number is a multiple of 2^32. *)
Theorem C11_count_partial : forall ops log p pr m l, Forall wt_op ops -> run pool4db_alloc [] ops = Ok (log, p) ->
  no_enomem log -> all_benign log -> lists l (held log pr m) -> 0 < Z.of_nat (length l) < 2^32 ->
  exists t tb, get_trees p pr = Some t /\ tree_find m (tmark t) = Some tb /\ t_count tb = Z.of_nat (length l) /\
  forall hash eph route k, mask_domain_find p pr m hash eph route k <> UB.
Proof.
  intros ops log p pr m l Hw H Hn Hb Hl Hlen. pose proof (reach _ _ _ Hw H Hn) as HI. destruct (reach_exact _ _ _ Hw H Hn Hb) as [Hs Hx].
  destruct l as [|[a q] l]; [cbn in Hlen; lia|]. assert (Hh : held log pr m a q) by (apply Hl; left; reflexivity).
  pose proof (held_not_empty _ _ _ _ _ _ HI Hh) as He.
  destruct (HI pr) as (_ & H2 & _). pose proof (proj2 (H2 m a q) Hh) as (tb & Hf & _).
  destruct (mark_list _ _ _ _ _ HI Hs Hf) as (L1 & L2 & (_ & _ & _ & L3) & _).
  rewrite (lists_length _ _ _ Hl L1) in *. rewrite L2 in *.
  assert (Hc : t_count tb = total (t_ranges tb)).
  { specialize (Hx pr m tb Hf). rewrite (u32_small _ L3), u32_small in Hx by (unfold is_u32; lia). exact Hx. }
  destruct (get_trees p pr) as [t|] eqn:Hg.
  2:{ destruct pr; try discriminate Hg. discriminate Hf. }
  pose proof (get_trees_of _ _ _ Hg) as [-> _]. exists (trees_of p pr), tb. split; [reflexivity|]. split; [exact Hf|]. split; [exact Hc|].
  intros hash eph route k. unfold mask_domain_find. rewrite He, Hg, Hf.
  replace (t_count tb =? 0) with false by lia. destruct k; discriminate.
Qed.
Print Assumptions C11_count_partial.

Definition ex11 := [OAdd (tcp_entry 0 0xc0000200 30 100 200) None false []; OAdd (tcp_entry 0 0xc0000201 32 300 310) None false [];
  OAdd (tcp_entry 0 0xc0000201 32 120 130) None false []; ORm 0 TCP (Rg 0xc0000200 31 50 150) []].
Example C11_count_witness : Forall wt_op ex11 /\ exists log p t tb, run pool4db_alloc [] ex11 = Ok (log, p) /\
  no_enomem log /\ get_trees p TCP = Some t /\ tree_find 0 (tmark t) = Some tb /\ t_count tb = 313 /\
  exists l, lists l (held log TCP 0) /\ Z.of_nat (length l) = 313.
Proof.
  assert (W : Forall wt_op ex11) by (repeat constructor; vm_compute; congruence). split; [exact W|].
  destruct (run pool4db_alloc [] ex11) as [[log p]| |] eqn:E; [|vm_compute in E; discriminate|vm_compute in E; discriminate].
  assert (Hn : no_enomem log).
  { intros o Hi. assert (Hr : match run pool4db_alloc [] ex11 with Ok (log, _) => map snd log | _ => [] end = [OK; OK; OK; OK]) by (vm_compute; reflexivity).
    rewrite E in Hr. apply (in_map snd) in Hi. rewrite Hr in Hi. cbn in Hi. repeat (destruct Hi as [X|Hi]; [discriminate|]). destruct Hi. }
  pose proof (reach _ _ _ W E Hn) as HI.
  assert (Hv : forall o, In (o, OK) log -> not_vacuous o).
  { assert (F : Forall not_vacuous ex11) by (repeat (constructor; [first [exact I | vm_compute; discriminate]|]); constructor).
    intros o Hi. destruct (run_log _ _ _ _ _ E _ _ Hi) as [[]|Hi']. rewrite Forall_forall in F. apply F. exact Hi'. }
  pose proof (reach_solid _ _ _ W E Hn Hv) as Hs.
  assert (Ht : match run pool4db_alloc [] ex11 with Ok (_, p) => match tree_find 0 (tmark (trees_of p TCP)) with Some tb => (t_count tb, total (t_ranges tb)) | None => (0, 0) end | _ => (0, 0) end = (313, 313)) by (vm_compute; reflexivity).
  rewrite E in Ht. destruct (tree_find 0 (tmark (trees_of p TCP))) as [tb|] eqn:Hf; [|discriminate]. injection Ht as T1 T2.
  exists log, p, (trees_of p TCP), tb. split; [reflexivity|]. split; [exact Hn|]. split; [reflexivity|]. split; [exact Hf|]. split; [exact T1|].
  destruct (mark_list _ _ _ _ _ HI Hs Hf) as (L1 & L2 & _). exists (addrs (t_ranges tb)). split; [exact L1|]. congruence.
Qed.

(** An addition which overlaps an earlier one is not counted; removing it
    again makes the count zero while addresses remain, and the next packet of
    that mark divides by zero. *)
Definition ex11a := [OAdd (tcp_entry 0 0xc0000201 32 1 10) None false []; OAdd (tcp_entry 0 0xc0000201 32 5 20) None false [];
  ORm 0 TCP (Rg 0xc0000201 32 11 20) []].
Theorem C11_overlap_refuted : exists log p, Forall wt_op ex11a /\ run pool4db_alloc [] ex11a = Ok (log, p) /\ no_enomem log /\
  held log TCP 0 0xc0000201 10 /\ forall hash eph route, mask_domain_find p TCP 0 hash eph route KStay = UB.
Proof.
  eexists _, _. split; [repeat constructor; vm_compute; congruence|]. split; [vm_compute; reflexivity|]. split.
  { intros o Hi. cbn in Hi. repeat (destruct Hi as [E|Hi]; [discriminate|]). destruct Hi. }
  split; [|reflexivity]. cbn. unfold covers, in_prefix, port_ok. cbn. split; [right; left|].
  - split; [reflexivity|]. split; [reflexivity|]. split; [|discriminate]. split; [reflexivity|lia].
  - intros (_ & _ & _ & [?|?]); lia.
Qed.
Print Assumptions C11_overlap_refuted.

(** Adding TCP ports 0-0 is accepted, stores an empty range, and the next
    packet divides by zero. *)
Theorem C11_port_zero_refuted : exists log p, wt_op (OAdd (tcp_entry 0 0xc0000201 32 0 0) None false []) /\
  run pool4db_alloc [] [OAdd (tcp_entry 0 0xc0000201 32 0 0) None false []] = Ok (log, p) /\ no_enomem log /\
  forall hash eph route, mask_domain_find p TCP 0 hash eph route KStay = UB.
Proof.
  eexists _, _. split; [vm_compute; intuition congruence|]. split; [vm_compute; reflexivity|]. split; [|reflexivity].
  intros o Hi. cbn in Hi. destruct Hi as [E|[]]. discriminate.
Qed.
Print Assumptions C11_port_zero_refuted.

(** A removal which punches a hole counts the second half twice; the offset
    can then fall beyond the end, and the packet is dropped as a "bug". *)
Definition ex11c := [OAdd (tcp_entry 0 0xc0000201 32 1 100) None false []; ORm 0 TCP (Rg 0xc0000201 32 2 2) []].
Theorem C11_hole_refuted : exists log p, Forall wt_op ex11c /\ run pool4db_alloc [] ex11c = Ok (log, p) /\ no_enomem log /\
  held log TCP 0 0xc0000201 1 /\ mask_domain_find p TCP 0 150 0 None KStay = Ok Drop.
Proof.
  eexists _, _. split; [repeat constructor; vm_compute; congruence|]. split; [vm_compute; reflexivity|]. split.
  { intros o Hi. cbn in Hi. repeat (destruct Hi as [E|Hi]; [discriminate|]). destruct Hi. }
  split; [|vm_compute; reflexivity]. cbn. unfold covers, in_prefix, port_ok. cbn. split; [left|].
  - split; [reflexivity|]. split; [reflexivity|]. split; [|discriminate]. split; [reflexivity|lia].
  - intros (_ & _ & _ & [?|?]); lia.
Qed.
Print Assumptions C11_hole_refuted.

Lemma add_once : forall e, prefix4_validate (range_prefix (pe_range e)) = OK ->
  max_iterations_validate (pe_flags e) (pe_iter e) = OK -> pe_proto e <> OTHER ->
  exists p, run pool4db_alloc [] [OAdd e None false []] = Ok ([(OAdd e None false [], OK)], p).
Proof.
  intros e H1 H2 H3. cbn [run step]. unfold pool4db_add. rewrite H1, H2.
  replace (ephemeral_clash e None false) with false by (unfold ephemeral_clash; destruct (add_ports e); destruct (pe_proto e); reflexivity).
  destruct (get_trees pool4db_alloc (pe_proto e)) as [t|] eqn:Hg; [|destruct (pe_proto e); cbn in Hg; congruence].
  destruct (add_ports e) as [lo hi].
  destruct (add_addrs_total (prefix4_addrs (range_prefix (pe_range e))) t e lo hi []) as (r & t' & m' & -> & H); [left; intros []|].
  cbn [bind]. rewrite H by (intros []). eexists. reflexivity.
Qed.

(** One /16 with all 65536 ICMP identifiers: 2^32 addresses, and the 32-bit
    count is zero.  (Too large to compute: proved through the theorem above.) *)
Definition ex11d := OAdd (PEntry 0 0 0 ICMP (Rg 0x0a000000 16 0 65535)) None false [].
Theorem C11_wrap_refuted : exists log p, wt_op ex11d /\ run pool4db_alloc [] [ex11d] = Ok (log, p) /\ no_enomem log /\
  held log ICMP 0 0x0a000001 80 /\ forall hash eph route, mask_domain_find p ICMP 0 hash eph route KStay = UB.
Proof.
  assert (W : wt_op ex11d) by (vm_compute; intuition congruence).
  assert (Ws : Forall wt_op [ex11d]) by (constructor; [exact W|constructor]).
  destruct (add_once (PEntry 0 0 0 ICMP (Rg 0x0a000000 16 0 65535)) eq_refl eq_refl ltac:(discriminate)) as (p & E). fold ex11d in E.
  remember [(ex11d, OK)] as log eqn:Hlog.
  assert (Hn : no_enomem log) by (rewrite Hlog; intros o [X|[]]; discriminate).
  pose proof (reach _ _ _ Ws E Hn) as HI.
  assert (Hb : all_benign log).
  { rewrite Hlog. split; [|exact I]. intros _. split; [exact I|]. intros a _. left. intros q _ Hh. exact Hh. }
  destruct (reach_exact _ _ _ Ws E Hn Hb) as [Hs Hx].
  assert (Hh : forall a q, held log ICMP 0 a q <-> 0x0a000000 <= a < 0x0a010000 /\ 0 <= q <= 65535).
  { intros a q. rewrite Hlog. cbn. unfold covers, in_prefix, port_ok. cbn.
    change (2 ^ 16) with 65536. change (0x0a000000 / 65536) with 2560.
    assert (Hd : 2560 = a / 65536 <-> 0x0a000000 <= a < 0x0a010000).
    { pose proof (Z.div_mod a 65536 ltac:(lia)). pose proof (Z.mod_pos_bound a 65536 ltac:(lia)). split; lia. }
    clear - Hd. intuition lia. }
  assert (H80 : held log ICMP 0 0x0a000001 80) by (apply Hh; lia).
  exists log, p. split; [exact W|]. split; [exact E|]. split; [exact Hn|]. split; [exact H80|]. intros hash eph route.
  pose proof (held_not_empty _ _ _ _ _ _ HI H80) as He.
  destruct (HI ICMP) as (_ & H2 & _). pose proof (proj2 (H2 0 _ _) H80) as (tb & Hf & _).
  destruct (mark_list _ _ _ _ _ HI Hs Hf) as (L1 & L2 & (_ & _ & _ & L3) & _).
  set (l := list_prod (map (fun i => 0x0a000000 + Z.of_nat i) (seq 0 (Z.to_nat 65536))) (map Z.of_nat (seq 0 (Z.to_nat 65536)))).
  assert (Ll : lists l (held log ICMP 0)).
  { split.
    - unfold l. assert (P : forall (xs ys : list Z), NoDup xs -> NoDup ys -> NoDup (list_prod xs ys)).
      { induction xs as [|x xs IH]; intros ys Nx Ny; cbn [list_prod]; [constructor|]. apply NoDup_cons_iff in Nx. destruct Nx as [Nx Nxs].
        apply NoDup_app_intro; [apply FinFun.Injective_map_NoDup; [intros ? ? X; injection X; auto|exact Ny]|apply IH; auto|].
        intros [u v] Hu Hv. apply in_map_iff in Hu. destruct Hu as (y & X & _). injection X as -> ->. apply in_prod_iff in Hv. tauto. }
      apply P; apply FinFun.Injective_map_NoDup; try apply seq_NoDup; intros i j X; lia.
    - intros a q. rewrite Hh. unfold l. rewrite in_prod_iff, !in_map_iff. split.
      + intros [(i & <- & Hi) (j & <- & Hj)]. apply in_seq in Hi. apply in_seq in Hj. lia.
      + intros [Ha Hq]. split; [exists (Z.to_nat (a - 0x0a000000))|exists (Z.to_nat q)]; (split; [lia|apply in_seq; lia]). }
  assert (Hlen : Z.of_nat (length l) = 2^32).
  { unfold l. rewrite prod_length, !map_length, !seq_length. rewrite Nat2Z.inj_mul, !Z2Nat.id by lia. reflexivity. }
  specialize (Hx ICMP 0 tb Hf). rewrite (u32_small _ L3), <- L2, (lists_length _ _ _ L1 Ll), Hlen in Hx.
  unfold mask_domain_find. rewrite He. cbn [get_trees]. change (p_icmp p) with (trees_of p ICMP). rewrite Hf, Hx. reflexivity.
Qed.
Print Assumptions C11_wrap_refuted.

(** ** C12 *)
(** Under the conditions of C11, for any hash and any ephemeral counter, the
    iterator starts, and yields each address of the mark exactly once before
    -ENOENT, or as many of them as the limit allows. *)
Theorem C12_enumeration_partial : forall ops log p pr m n hash eph route k,
  Forall wt_op ops -> run pool4db_alloc [] ops = Ok (log, p) -> no_enomem log -> all_benign log ->
  (exists l, lists l (held log pr m) /\ length l = n) -> 0 < Z.of_nat n < 2^32 - 1 -> k <> KFail ->
  exists d l out, mask_domain_find p pr m hash eph route k = Ok (Domain d) /\ d_count d = Z.of_nat n /\
    lists l (held log pr m) /\
    (forall fuel, (n < fuel)%nat -> enum fuel d = Ok out) /\
    map fst out = cut (d_maxit d) l /\ consecutive_ok None out.
Proof.
  intros ops log p pr m n hash eph route k Hw H Hn Hb (l & Hl & El) Hlen Hk. subst n.
  pose proof (reach _ _ _ Hw H Hn) as HI. change (2^32) with 4294967296 in *.
  destruct (reach_exact _ _ _ Hw H Hn Hb) as [Hs Hx].
  destruct l as [|[a q] l]; [cbn in Hlen; lia|]. assert (Hh : held log pr m a q) by (apply Hl; left; reflexivity).
  pose proof (held_not_empty _ _ _ _ _ _ HI Hh) as He.
  destruct (HI pr) as (_ & H2 & _). pose proof (proj2 (H2 m a q) Hh) as (tb & Hf & _).
  destruct (mark_list _ _ _ _ _ HI Hs Hf) as (L1 & L2 & (T1 & T2 & T3 & L3) & L4).
  pose proof (lists_length _ _ _ Hl L1) as EL. rewrite EL in *.
  assert (Hc : t_count tb = total (t_ranges tb)).
  { specialize (Hx pr m tb Hf). rewrite (u32_small _ L3), u32_small in Hx by (unfold is_u32; change (2^32) with 4294967296; lia). exact Hx. }
  destruct (get_trees p pr) as [t|] eqn:Hg.
  2:{ destruct pr; try discriminate Hg. discriminate Hf. }
  pose proof (get_trees_of _ _ _ Hg) as [-> _].
  set (off := u32 (hash + eph) mod t_count tb).
  assert (Hoff : 0 <= off < total (t_ranges tb)) by (unfold off; rewrite Hc; apply Z.mod_pos_bound; lia).
  destruct (place_ok (t_ranges tb) 0 off T2 L4 T1 Hoff) as (j & port & r & Ep & Hr & Hport & Eoff); [change (2^32) with 4294967296; lia|].
  set (d := Dom m (t_count tb) 0 (compute_max_iterations tb) (t_ranges tb) j port false).
  assert (Efind : mask_domain_find p pr m hash eph route k = Ok (Domain d)).
  { unfold mask_domain_find. rewrite He, Hg, Hf. replace (t_count tb =? 0) with false by lia. fold off. rewrite Ep. destruct k; [congruence|reflexivity|reflexivity]. }
  assert (Edc : d_count d = Z.of_nat (length (addrs (t_ranges tb)))) by (cbn [d_count d]; rewrite Hc; lia).
  destruct L1 as [N1 N2].
  assert (Lrot : lists (rot (Z.to_nat off) (addrs (t_ranges tb))) (held log pr m)).
  { split; [apply rot_nodup; exact N1|]. intros a' q'. rewrite rot_in. apply N2. }
  destruct (Z_lt_ge_dec (compute_max_iterations tb) 0) as [Hneg|Hmx].
  { exists d, (rot (Z.to_nat off) (addrs (t_ranges tb))), []. split; [exact Efind|]. split; [exact Edc|]. split; [exact Lrot|]. split; [|split; [|exact I]].
    - intros [|fuel] Hfu; [lia|]. cbn [enum]. unfold mask_domain_next, d. cbn [d_mark d_count d_counter d_maxit d_ranges d_cur d_port d_dynamic].
      change (u32 (0 + 1)) with 1. replace (t_count tb <? 1) with false by lia. replace (compute_max_iterations tb =? 0) with false by lia.
      replace (compute_max_iterations tb <? 1) with true by lia. reflexivity.
    - unfold cut, d. cbn [d_maxit]. replace (compute_max_iterations tb =? 0) with false by lia.
      replace (Z.to_nat (compute_max_iterations tb)) with O by lia. reflexivity. }
  assert (Hat : at_ (t_ranges tb) d off) by (split; [reflexivity|]; exists r; cbn [d_cur d_port d]; auto).
  set (N := total (t_ranges tb)) in *.
  assert (Hlim : forall fuel, (length (addrs (t_ranges tb)) < fuel)%nat -> lim N (d_maxit d) - 0 < Z.of_nat fuel).
  { intros fuel Hfu. unfold lim. destruct (d_maxit d =? 0); lia. }
  assert (G : forall fuel, (length (addrs (t_ranges tb)) < fuel)%nat -> exists out, enum fuel d = Ok out /\
     map fst out = firstn (Z.to_nat (lim N (d_maxit d) - 0)) (skipn (Z.to_nat 0) (rot (Z.to_nat off) (addrs (t_ranges tb)))) /\ consecutive_ok None out).
  { intros fuel Hfu. destruct (enum_ok fuel (t_ranges tb) off d 0) as (out & E1 & E2 & E3); try assumption; try reflexivity.
    - change (2^32) with 4294967296. fold N. lia.
    - unfold lim. fold N. cbn [d_maxit d]. destruct (compute_max_iterations tb =? 0); lia.
    - cbn [d_maxit d]. lia.
    - exists off. split; [exact Hat|]. fold N. rewrite Z.add_0_r, Z.mod_small by lia. unfold wrap. replace (off =? N) with false by lia. reflexivity.
    - apply Hlim. exact Hfu.
    - exists out. split; [exact E1|]. split; [exact E2|]. apply E3; [reflexivity|congruence]. }
  destruct (G _ (Nat.lt_succ_diag_r _)) as (out & E1 & E2 & E3).
  exists d, (rot (Z.to_nat off) (addrs (t_ranges tb))), out. split; [exact Efind|]. split; [exact Edc|]. split; [exact Lrot|]. split; [|split; [|exact E3]].
  - intros fuel Hfu. apply (enum_mono _ _ _ E1). lia.
  - rewrite E2. cbn [skipn Z.to_nat]. unfold cut, lim. cbn [d_maxit d]. destruct (compute_max_iterations tb =? 0) eqn:Em.
    + rewrite Z.sub_0_r. apply firstn_all2. rewrite rot_len. lia.
    + rewrite Z.sub_0_r. destruct (Z_le_gt_dec (compute_max_iterations tb) N).
      * rewrite Z.min_l by lia. reflexivity.
      * rewrite Z.min_r by lia. rewrite !firstn_all2; auto; rewrite rot_len; lia.
Qed.
Print Assumptions C12_enumeration_partial.

Definition ex12 := [OAdd (tcp_entry 0 0xc0000200 31 100 102) None false []; OAdd (tcp_entry 0 0xc0000201 32 200 201) None false []].
Example C12_enumeration_witness : exists log p d, Forall wt_op ex12 /\ run pool4db_alloc [] ex12 = Ok (log, p) /\ no_enomem log /\ all_benign log /\
  mask_domain_find p TCP 0 1002 2 None KStay = Ok (Domain d) /\
  enum 9 d = Ok [(0xc0000201, 101, false); (0xc0000201, 102, true); (0xc0000201, 200, false); (0xc0000201, 201, true);
                 (0xc0000200, 100, false); (0xc0000200, 101, true); (0xc0000200, 102, true); (0xc0000201, 100, false)].
Proof.
  eexists _, _, _. split; [repeat constructor; vm_compute; congruence|]. split; [vm_compute; reflexivity|]. split.
  { intros o Hi. cbn in Hi. repeat (destruct Hi as [E|Hi]; [discriminate|]). destruct Hi. }
  split; [|split; [vm_compute; reflexivity|vm_compute; reflexivity]].
  cbn. unfold covers, in_prefix. cbn. split; [|split; [|exact I]]; intros _; (split; [discriminate|]); intros a Ha; left; intros q Hq H.
  - destruct H as [(_ & _ & (_ & Hq') & _)|[]]. lia.
  - exact H.
Qed.

(** Without interface addresses configured the default range of the outgoing
    interface's address is enumerated in full. *)
Theorem C12_enumeration_empty : forall ops log p pr m hash eph a k,
  Forall wt_op ops -> run pool4db_alloc [] ops = Ok (log, p) -> no_enomem log ->
  (forall o, In (o, OK) log -> not_vacuous o) -> (forall pr' m' a' q', ~ held log pr' m' a' q') -> is_u32 a -> k <> KFail ->
  exists d l out, mask_domain_find p pr m hash eph (Some a) k = Ok (Domain d) /\ d_count d = 4535 /\ d_dynamic d = true /\
    lists l (fun a' q => a' = a /\ 61001 <= q <= 65535) /\
    (forall fuel, (4535 < fuel)%nat -> enum fuel d = Ok out) /\ map fst out = l /\ consecutive_ok None out.
Proof.
  intros ops log p pr m hash eph a k Hw H Hn Hv Hh Ha Hk. pose proof (reach _ _ _ Hw H Hn) as HI.
  pose proof (reach_solid _ _ _ Hw H Hn Hv) as Hs. pose proof (solid_empty _ _ HI Hs Hh) as He.
  set (off := u32 (hash + eph) mod 4535). set (r := Rg a 0 61001 65535).
  assert (Hoff : 0 <= off < 4535) by (apply Z.mod_pos_bound; lia).
  set (d := Dom 0 4535 0 0 [r] 0 (61001 + off) true).
  assert (Ef : mask_domain_find p pr m hash eph (Some a) k = Ok (Domain d)).
  { unfold mask_domain_find. rewrite He. destruct k; [congruence|reflexivity|reflexivity]. }
  (* the iterator does not look at prefix lengths *)
  set (r' := Rg a 32 61001 65535). set (d' := Dom 0 4535 0 0 [r'] 0 (61001 + off) true).
  assert (Eq : forall fuel c port, enum fuel (Dom 0 4535 c 0 [r] 0 port true) = enum fuel (Dom 0 4535 c 0 [r'] 0 port true)).
  { induction fuel as [|fuel IH]; intros c port; [reflexivity|]. cbn [enum]. unfold mask_domain_next.
    cbn [d_mark d_count d_counter d_maxit d_ranges d_cur d_port d_dynamic nth_error length]. cbn [negb Z.eqb andb].
    destruct (4535 <? u32 (c + 1)); [reflexivity|]. cbn [r r' r_max r_min r_addr].
    destruct (65535 <? port + 1); cbn [Nat.leb nth_error bind r_min r_addr]; rewrite IH; reflexivity. }
  assert (W : Forall wfr [r']) by (constructor; [|constructor]; unfold wfr, r'; cbn [r_min r_max r_len r_addr]; split; [lia|]; split; [lia|]; split; [lia|]; split; [reflexivity|exact Ha]).
  assert (O : ordered [r']) by (split; [intros x []|exact I]).
  assert (S : solidr [r']) by (intros x [<-|[]]; cbn; lia).
  assert (T : total [r'] = 4535) by reflexivity.
  set (off' := (off + 1) mod 4535). assert (Hoff' : 0 <= off' < 4535) by (apply Z.mod_pos_bound; lia).
  assert (G : forall fuel, (4535 < fuel)%nat -> exists out, enum fuel d' = Ok out /\
     map fst out = rot (Z.to_nat off') (addrs [r']) /\ consecutive_ok None out).
  { intros fuel Hfu. destruct (enum_ok fuel [r'] off' d' 0) as (out & E1 & E2 & E3); try assumption; try reflexivity.
    - rewrite T. cbn. lia.
    - exists (off + 1). split.
      + split; [reflexivity|]. exists r'. split; [reflexivity|]. cbn [d_port d' r' r_min r_max d_cur firstn total]. lia.
      + rewrite T, Z.add_0_r. rewrite (Z.mod_small off') by lia. unfold off', wrap.
        destruct (off + 1 =? 4535) eqn:E; [assert (off = 4534) as -> by lia; reflexivity|]. symmetry. apply Z.mod_small. lia.
    - rewrite T. cbn [d_maxit d']. unfold lim. cbn [Z.eqb]. lia.
    - exists out. split; [exact E1|]. split; [|apply E3; [reflexivity|congruence]]. rewrite E2. rewrite T. cbn [d_maxit d' lim Z.eqb skipn Z.to_nat]. unfold lim.
      cbn [Z.eqb]. apply firstn_all2. rewrite rot_len. pose proof (addrs_len [r'] W) as Hl. rewrite T in Hl. lia. }
  destruct (G 4536%nat ltac:(lia)) as (out & E1 & E2 & E3).
  exists d, (rot (Z.to_nat off') (addrs [r'])), out. split; [exact Ef|]. split; [reflexivity|]. split; [reflexivity|]. split; [|split; [|split; [exact E2|exact E3]]].
  - split; [apply rot_nodup, addrs_nodup; assumption|]. intros a' q. rewrite rot_in, addrs_in. unfold inr, rin. split.
    + intros (x & [<-|[]] & <- & Hq). auto.
    + intros [-> Hq]. exists r'. split; [left; reflexivity|]. auto.
  - intros fuel Hfu. unfold d. rewrite Eq. apply (enum_mono _ _ _ E1). lia.
Qed.
Print Assumptions C12_enumeration_empty.
Example C12_enumeration_empty_witness : exists d, mask_domain_find pool4db_alloc TCP 0 4534 0 (Some 0xc0000201) KStay = Ok (Domain d) /\
  match mask_domain_next d with Ok (_, inl x) => x = (0xc0000201, 61001, false) | _ => False end.
Proof. eexists. split; [vm_compute; reflexivity|vm_compute; reflexivity]. Qed.

(** An uncounted overlap: the iterator gives up half way, although the limit
    (1024) has not been reached. *)
Theorem C12_enumeration_refuted : exists ops log p d out, Forall wt_op ops /\ run pool4db_alloc [] ops = Ok (log, p) /\ no_enomem log /\
  mask_domain_find p TCP 0 0 0 None KStay = Ok (Domain d) /\ d_maxit d = 1024 /\ enum 100 d = Ok out /\ length out = 10%nat /\
  held log TCP 0 0xc0000201 20 /\ ~ In (0xc0000201, 20) (map fst out).
Proof.
  exists [OAdd (tcp_entry 0 0xc0000201 32 1 10) None false []; OAdd (tcp_entry 0 0xc0000201 32 5 20) None false []].
  eexists _, _, _, _. split; [repeat constructor; vm_compute; congruence|]. split; [vm_compute; reflexivity|]. split.
  { intros o Hi. cbn in Hi. repeat (destruct Hi as [E|Hi]; [discriminate|]). destruct Hi. }
  split; [vm_compute; reflexivity|]. split; [reflexivity|]. split; [vm_compute; reflexivity|]. split; [reflexivity|]. split.
  - cbn. unfold covers, in_prefix, port_ok. cbn. left. repeat (split; [reflexivity|]). split; [|discriminate]. split; [reflexivity|lia].
  - cbn. intuition congruence.
Qed.
Print Assumptions C12_enumeration_refuted.

(** ** C13 *)
(** What another mark can draw its masks from does not change... *)
Theorem C13_marks_partial : forall ops log p o r p' pr m hash eph route k d,
  Forall wt_op ops -> run pool4db_alloc [] ops = Ok (log, p) -> no_enomem log ->
  wt_op o -> o <> OFlush -> op_mark o <> Some m -> step p o = Ok (r, p') -> r <> Err ENOMEM ->
  mask_domain_find p pr m hash eph route k = Ok (Domain d) -> d_dynamic d = false ->
  mask_domain_find p' pr m hash eph route k = Ok (Domain d).
Proof.
  intros ops log p o r p' pr m hash eph route k d Hw H Hn Ho Hof Hm Hst Hr Hfind Hdyn. pose proof (reach _ _ _ Hw H Hn) as HI.
  assert (Hsame : tree_find m (tmark (trees_of p' pr)) = tree_find m (tmark (trees_of p pr))).
  { destruct o; cbn [step op_mark] in *.
    - destruct Ho as (W1 & W2 & W3 & W4). unfold pool4db_add in Hst.
      destruct (prefix4_validate (range_prefix (pe_range e))) eqn:Hva; [|injection Hst as <- <-; reflexivity].
      destruct (max_iterations_validate (pe_flags e) (pe_iter e)); [|injection Hst as <- <-; reflexivity].
      destruct (ephemeral_clash e eph0 force); [injection Hst as <- <-; reflexivity|].
      destruct (get_trees p (pe_proto e)) as [t|] eqn:Hg; [|injection Hst as <- <-; reflexivity].
      apply get_trees_of in Hg. destruct Hg as [-> Hp].
      destruct (add_ports e) as [lo hi] eqn:Hports. destruct (add_ports_ok _ _ _ W4 Hports) as (P1 & P2 & P3 & _).
      destruct (add_addrs (trees_of p (pe_proto e)) e lo hi (prefix4_addrs (range_prefix (pe_range e))) m0) as [[[x t'] m']| |] eqn:E;
        cbn [bind] in Hst; try discriminate. injection Hst as <- <-.
      destruct (HI (pe_proto e)) as (O1 & _). pose proof (range_prefix_wt _ W4) as Wp.
      destruct (add_addrs_ok _ _ _ _ _ _ _ _ _ O1 P1 P2 P3 (prefix4_addrs_nodup _) (prefix4_addrs_u32 _ Wp Hva) E) as [I1 I2].
      destruct x as [|x]; [|specialize (I1 ltac:(discriminate)); congruence]. destruct (I2 eq_refl) as (_ & _ & _ & J4 & _).
      rewrite trees_set by exact Hp. destruct (pe_proto e), pr; try reflexivity; apply J4; congruence.
    - destruct Ho as (W1 & W4). unfold pool4db_rm in Hst.
      destruct (prefix4_validate (range_prefix r0)) eqn:Hva; [|injection Hst as <- <-; reflexivity].
      destruct (get_trees p pr0) as [t|] eqn:Hg; [|injection Hst as <- <-; reflexivity]. apply get_trees_of in Hg. destruct Hg as [-> Hp].
      set (lo := Z.min (r_min r0) (r_max r0)) in *. set (hi := Z.max (r_min r0) (r_max r0)) in *.
      assert (B : 0 <= lo /\ lo <= hi /\ hi <= 65535) by (destruct W4 as (_ & _ & A1 & A2); unfold is_u16 in *; lia). destruct B as (B1 & B2 & B3).
      destruct (rm_from_mark_tree (trees_of p pr0) mark (range_prefix r0) lo hi m0) as [[[y t1] m1]| |] eqn:E1; cbn [bind] in Hst; try discriminate.
      destruct (HI pr0) as ((O1 & _) & _). destruct (rm_mark_ok _ _ _ _ _ _ _ _ _ O1 B1 B2 B3 E1) as (_ & I1 & I2).
      destruct y as [|y]; [|injection Hst as <- <-; specialize (I1 ltac:(discriminate)); congruence].
      destruct (I2 eq_refl) as (_ & _ & J3 & _). unfold rm_from_addr_tree in Hst.
      match type of Hst with (let! _ := (let! _ := ?q in _) in _) = _ => destruct q as [[[z tr] m2]| |] end; cbn [bind] in Hst; try discriminate.
      injection Hst as <- <-. rewrite trees_set by exact Hp. destruct pr0, pr; try reflexivity; cbn [tmark]; apply J3; congruence.
    - congruence.
    - injection Hst as Hst. unfold pool4db_update in Hst. destruct (max_iterations_validate flags iters); [|injection Hst as <- <-; reflexivity].
      destruct (get_trees p pr0) as [t|] eqn:Hg; [|injection Hst as <- <-; reflexivity]. apply get_trees_of in Hg. destruct Hg as [-> Hp].
      destruct (tree_find mark (tmark (trees_of p pr0))) as [tb|] eqn:Hf; [|injection Hst as <- <-; reflexivity].
      destruct (Z.land flags ITERATIONS_SET =? 0); injection Hst as <- <-; [reflexivity|].
      rewrite trees_set by exact Hp. destruct pr0, pr; try reflexivity; cbn [tmark trees_of] in *;
        (rewrite find_replace by (apply in_map_iff; exists (mark, tb); split; [reflexivity|apply find_in; exact Hf]));
        (replace (mark =? m) with false; [reflexivity|]); symmetry; apply Z.eqb_neq; congruence. }
  unfold mask_domain_find in *. destruct k; [exact Hfind| |];
    (destruct (pool_is_empty p) eqn:He; [destruct route; [|discriminate]; injection Hfind as <-; discriminate|];
     assert (Hgt : get_trees p pr = Some (trees_of p pr) /\ get_trees p' pr = Some (trees_of p' pr)) by (destruct pr; cbn in *; auto; discriminate);
     destruct Hgt as [G1 G2]; rewrite G1 in Hfind; rewrite G2;
     destruct (tree_find m (tmark (trees_of p pr))) as [tb|] eqn:Hf; [|discriminate];
     assert (He' : pool_is_empty p' = false)
       by (destruct (pool_is_empty p') eqn:He'; [|reflexivity]; rewrite empty_iff in He'; rewrite He' in Hsame; discriminate Hsame);
     rewrite He', Hsame; exact Hfind).
Qed.
Print Assumptions C13_marks_partial.
Example C13_marks_witness : exists log p p' d, run pool4db_alloc []
    [OAdd (tcp_entry 1 0xc0000201 32 1 10) None false []; OAdd (tcp_entry 2 0xc0000201 32 5 20) None false []] = Ok (log, p) /\
  step p (ORm 1 TCP (Rg 0xc0000201 32 1 65535) []) = Ok (OK, p') /\ mask_domain_find p TCP 2 3 4 None KStay = Ok (Domain d) /\
  mask_domain_find p' TCP 2 3 4 None KStay = Ok (Domain d) /\ d_dynamic d = false.
Proof. eexists _, _, _, _. repeat (split; [vm_compute; reflexivity|]). reflexivity. Qed.

(** ... but what 4-to-6 traffic sees does: a removal under mark 1 takes away
    what mark 2 still holds. *)
Theorem C13_marks_refuted : exists ops log p, Forall wt_op ops /\ run pool4db_alloc [] ops = Ok (log, p) /\ no_enomem log /\
  held log TCP 2 0xc0000201 8 /\ held log TCP 2 0xc0000201 15 /\
  pool4db_contains p [] TCP 0xc0000201 15 = Ok true /\ pool4db_contains p [] TCP 0xc0000201 8 = Ok false.
Proof.
  exists [OAdd (tcp_entry 1 0xc0000201 32 1 10) None false []; OAdd (tcp_entry 2 0xc0000201 32 5 20) None false []; ORm 1 TCP (Rg 0xc0000201 32 1 10) []].
  eexists _, _. split; [repeat constructor; vm_compute; congruence|]. split; [vm_compute; reflexivity|]. split.
  { intros o Hi. cbn in Hi. repeat (destruct Hi as [E|Hi]; [discriminate|]). destruct Hi. }
  assert (G : forall q, 5 <= q <= 20 -> held
     [(ORm 1 TCP (Rg 0xc0000201 32 1 10) [], OK); (OAdd (tcp_entry 2 0xc0000201 32 5 20) None false [], OK); (OAdd (tcp_entry 1 0xc0000201 32 1 10) None false [], OK)] TCP 2 0xc0000201 q).
  { intros q Hq. cbn. unfold covers, in_prefix, port_ok. cbn. split; [left|intros (_ & ? & _); discriminate].
    repeat (split; [reflexivity|]). split; [|lia]. split; [reflexivity|lia]. }
  split; [apply G; lia|]. split; [apply G; lia|]. split; vm_compute; reflexivity.
Qed.
Print Assumptions C13_marks_refuted.

(** The comparison the mark tree is sorted by is not an order: it has a cycle. *)
Theorem C13_mark_order_refuted : exists a b c, is_u32 a /\ is_u32 b /\ is_u32 c /\ cmp_mark a b < 0 /\ cmp_mark b c < 0 /\ cmp_mark c a < 0.
Proof. exists 0, 0xc0000000, 0x80000000. vm_compute. intuition congruence. Qed.
Print Assumptions C13_mark_order_refuted.

(** ** C14 *)
(** No reallocated table is used, as long as each request is steady; and
    lookups are safe after every history. *)
Theorem C14_memory_partial : forall ops log p o, Forall wt_op ops -> run pool4db_alloc [] ops = Ok (log, p) -> no_enomem log ->
  (wt_op o -> steady log o -> exists r p', step p o = Ok (r, p')) /\
  (forall ifas pr a q, exists b, pool4db_contains p ifas pr a q = Ok b).
Proof.
  intros ops log p o Hw H Hn. pose proof (reach _ _ _ Hw H Hn) as HI. split.
  - intros Ho Hs. destruct (steady_ok _ _ _ HI Ho Hs) as (r & p' & E & _). eauto.
  - intros ifas pr a q. destruct (pool_is_empty p) eqn:He.
    + unfold pool4db_contains. rewrite He. eauto.
    + destruct (contains_ok _ _ ifas pr a q HI He) as (b & E & _). eauto.
Qed.
Print Assumptions C14_memory_partial.
(** Histories without moves and without allocation failures run to the end. *)
Theorem C14_calm_partial : forall ops, Forall wt_op ops -> Forall (fun o => calm (op_mem o) /\ plenty (op_mem o)) ops ->
  exists log p, run pool4db_alloc [] ops = Ok (log, p) /\ no_enomem log.
Proof. intros ops Hw Hc. apply calm_run; auto; [apply PInv_init|intros o []]. Qed.
Print Assumptions C14_calm_partial.

Example C14_memory_witness : exists log p, run pool4db_alloc [] [OAdd (tcp_entry 0 0xc0000201 32 1 10) None false []] = Ok (log, p) /\
  steady log (OAdd (tcp_entry 0 0xc0000201 32 20 30) None false [KMove; KMove]) /\
  match step p (OAdd (tcp_entry 0 0xc0000201 32 20 30) None false [KMove; KMove]) with Ok (OK, _) => True | _ => False end.
Proof. eexists _, _. split; [vm_compute; reflexivity|]. split; [right; reflexivity|vm_compute; exact I]. Qed.

(** krealloc moving the table while a removal punches a hole, or while an
    addition also sets the iteration limit: the old block is used. *)
Theorem C14_hole_refuted : exists log p, run pool4db_alloc [] [OAdd (tcp_entry 0 0xc0000201 32 1 100) None false []] = Ok (log, p) /\ no_enomem log /\
  wt_op (ORm 0 TCP (Rg 0xc0000201 32 40 50) [KMove]) /\ step p (ORm 0 TCP (Rg 0xc0000201 32 40 50) [KMove]) = UB.
Proof.
  eexists _, _. split; [vm_compute; reflexivity|]. split; [|split; [vm_compute; intuition congruence|vm_compute; reflexivity]].
  intros o Hi. cbn in Hi. destruct Hi as [E|[]]. discriminate.
Qed.
Print Assumptions C14_hole_refuted.
Theorem C14_iterations_refuted : exists log p, run pool4db_alloc [] [OAdd (tcp_entry 0 0xc0000201 32 1 10) None false []] = Ok (log, p) /\ no_enomem log /\
  wt_op (OAdd (PEntry 0 500 1 TCP (Rg 0xc0000201 32 20 30)) None false [KMove]) /\
  step p (OAdd (PEntry 0 500 1 TCP (Rg 0xc0000201 32 20 30)) None false [KMove]) = UB.
Proof.
  eexists _, _. split; [vm_compute; reflexivity|]. split; [|split; [vm_compute; intuition congruence|vm_compute; reflexivity]].
  intros o Hi. cbn in Hi. destruct Hi as [E|[]]. discriminate.
Qed.
Print Assumptions C14_iterations_refuted.

(** ** C50 *)
Lemma field_bit : forall fields i bytes, 0 <= i -> field fields (2 ^ i) bytes = if Z.testbit fields i then bytes else [].
Proof.
  intros fields i bytes Hi. unfold field. destruct (Z.testbit fields i) eqn:E.
  - destruct (Z.land fields (2 ^ i) =? 0) eqn:E2; [|reflexivity]. apply Z.eqb_eq in E2.
    assert (H : Z.testbit (Z.land fields (2 ^ i)) i = false) by (rewrite E2; apply Z.bits_0).
    rewrite Z.land_spec, Z.pow2_bits_true, E in H by lia. discriminate.
  - replace (Z.land fields (2 ^ i)) with 0; [reflexivity|]. symmetry. apply Z.bits_inj'. intros n Hn.
    rewrite Z.land_spec, Z.bits_0. destruct (Z.eq_dec n i) as [->|Hne]; [rewrite E; reflexivity|].
    rewrite Z.pow2_bits_false by lia. apply andb_false_r.
Qed.
Lemma hash_tuple_bits : forall fields t key, hash_tuple fields t key =
  (if Z.testbit fields 3 then octets 16 (t6_saddr t) else []) ++ (if Z.testbit fields 2 then octets 2 (t6_sport t) else []) ++
  (if Z.testbit fields 1 then octets 16 (t6_daddr t) else []) ++ (if Z.testbit fields 0 then octets 2 (t6_dport t) else []) ++ key.
Proof.
  intros. unfold hash_tuple, F_ARGS_SRC_ADDR, F_ARGS_SRC_PORT, F_ARGS_DST_ADDR, F_ARGS_DST_PORT.
  change 8 with (2^3). change 4 with (2^2). change (field fields 2) with (field fields (2^1)). change (field fields 1) with (field fields (2^0)).
  rewrite !field_bit by lia. reflexivity.
Qed.

Theorem C50_hash_args : forall md5 fields t1 t2 key, agree fields t1 t2 -> rfc6056_f md5 fields t1 key = rfc6056_f md5 fields t2 key.
Proof.
  intros md5 fields t1 t2 key (A3 & A2 & A1 & A0). unfold rfc6056_f. do 3 f_equal. rewrite !hash_tuple_bits.
  destruct (Z.testbit fields 3); [rewrite A3 by reflexivity|]; (destruct (Z.testbit fields 2); [rewrite A2 by reflexivity|]);
  (destruct (Z.testbit fields 1); [rewrite A1 by reflexivity|]); (destruct (Z.testbit fields 0); [rewrite A0 by reflexivity|]); reflexivity.
Qed.
Print Assumptions C50_hash_args.

Lemma app_cut : forall (A : Type) (a b c d : list A), length a = length b -> a ++ c = b ++ d -> a = b /\ c = d.
Proof.
  induction a as [|x a IH]; intros [|y b] c d Hl H; cbn in Hl; try discriminate; [auto|]. cbn in H. injection H as -> H.
  destruct (IH b c d ltac:(lia) H) as [-> ->]. auto.
Qed.
(** Conversely each selected field goes into the hash in full. *)
Theorem C50_hash_all : forall fields t1 t2 key, wt_tuple6 t1 -> wt_tuple6 t2 ->
  hash_tuple fields t1 key = hash_tuple fields t2 key -> agree fields t1 t2.
Proof.
  intros fields t1 t2 key (W1 & W2 & W3 & W4) (V1 & V2 & V3 & V4) H. rewrite !hash_tuple_bits in H.
  assert (C : forall (b : bool) n x y u v, (if b then octets n x else []) ++ u = (if b then octets n y else []) ++ v ->
     (b = true -> octets n x = octets n y) /\ u = v).
  { intros b n x y u v E. apply app_cut in E; [|destruct b; [rewrite !octets_length|]; reflexivity]. destruct E as [E1 E2].
    split; [intros ->; exact E1|exact E2]. }
  apply C in H. destruct H as [H3 H]. apply C in H. destruct H as [H2 H]. apply C in H. destruct H as [H1 H]. apply C in H. destruct H as [H0 _].
  repeat split; intros Hb; eapply octets_inj; eauto; unfold is_u128, is_u16 in *; cbn; lia.
Qed.
Print Assumptions C50_hash_all.
Example C50_witness : agree 0xb (T6 1 2000 3 80) (T6 1 2001 3 80) /\ hash_tuple 0xb (T6 1 2000 3 80) [9] <> hash_tuple 0xf (T6 1 2000 3 80) [9] /\
  length (hash_tuple 0xb (T6 1 2000 3 80) [9]) = 35%nat.
Proof. split; [|split]; [unfold agree; cbn; intuition congruence|vm_compute; congruence|vm_compute; reflexivity]. Qed.

(** ** C51: the listing *)
Theorem C51_listing : forall ops log p pr t caps, Forall wt_op ops -> run pool4db_alloc [] ops = Ok (log, p) -> no_enomem log ->
  get_trees p pr = Some t -> Forall (fun c => (1 <= c)%nat) caps ->
  exists l, ((length l < length caps)%nat -> client (pool4db_foreach_sample (tmark t)) caps None = LDone l) /\ NoDup l /\
    (forall m a q, held log pr m a q <-> exists r, In (m, r) l /\ r_addr r = a /\ r_len r = 32 /\ r_min r <= q <= r_max r) /\
    (forall m r1 r2 q, In (m, r1) l -> In (m, r2) l -> r_addr r1 = r_addr r2 -> r_min r1 <= q <= r_max r1 -> r_min r2 <= q <= r_max r2 -> r1 = r2).
Proof.
  intros ops log p pr t caps Hw H Hn Hg Hc. pose proof (reach _ _ _ Hw H Hn) as HI.
  apply get_trees_of in Hg. destruct Hg as [-> _]. destruct (HI pr) as ((O1 & _) & H2 & _).
  exists (samples (tmark (trees_of p pr))). split; [intros Hl; apply pool4_pages; assumption|]. split; [apply samples_nodup; exact O1|]. split.
  - intros m a q. rewrite <- H2. unfold tin, inr, rin. split.
    + intros (tb & Hf & r & Hr & Ha & Hq). exists r. pose proof (proj2 O1 _ _ (find_in _ _ _ Hf)) as (_ & W & _). rewrite Forall_forall in W.
      specialize (W r Hr). split; [apply samples_in; exists tb; split; [apply find_in; exact Hf|exact Hr]|].
      split; [exact Ha|]. split; [apply W|exact Hq].
    + intros (r & Hi & Ha & _ & Hq). apply samples_in in Hi. destruct Hi as (tb & Hi & Hr). exists tb.
      split; [apply find_some; [apply O1|exact Hi]|]. exists r. auto.
  - intros m r1 r2 q Hi1 Hi2 Ha Hq1 Hq2. apply samples_in in Hi1, Hi2. destruct Hi1 as (tb & Hi1 & Hr1). destruct Hi2 as (tb2 & Hi2 & Hr2).
    pose proof (find_some _ _ _ (proj1 O1) Hi1) as F1. pose proof (find_some _ _ _ (proj1 O1) Hi2) as F2. rewrite F1 in F2. injection F2 as <-.
    destruct (proj2 O1 _ _ Hi1) as (_ & _ & T3 & _). destruct (ordered_cases _ _ _ T3 Hr1 Hr2) as [E|[B|B]]; [exact E|..]; unfold before in B; lia.
Qed.
Print Assumptions C51_listing.
Example C51_listing_witness : exists log p, run pool4db_alloc [] ex12 = Ok (log, p) /\
  client (pool4db_foreach_sample (tmark (p_tcp p))) [1; 1; 1; 1]%nat None =
    LDone [(0, Rg 0xc0000200 32 100 102); (0, Rg 0xc0000201 32 100 102); (0, Rg 0xc0000201 32 200 201)].
Proof. eexists _, _. split; vm_compute; reflexivity. Qed.

(** ** C52: the iteration limit *)
Lemma land_bit : forall x i, 0 <= i -> (Z.land x (2 ^ i) =? 0) = negb (Z.testbit x i).
Proof.
  intros x i Hi. pose proof (field_bit x i [0] Hi) as F. unfold field in F.
  destruct (Z.land x (2 ^ i) =? 0), (Z.testbit x i); cbn; congruence.
Qed.
Theorem C52_limit : forall ops log p pr m flags iters p' hash eph route k d,
  Forall wt_op ops -> run pool4db_alloc [] ops = Ok (log, p) -> no_enomem log -> Z.odd flags = true ->
  step p (OUpdate pr m flags iters) = Ok (OK, p') ->
  mask_domain_find p' pr m hash eph route k = Ok (Domain d) ->
  d_maxit d = limit flags iters (d_count d) /\ (Z.testbit flags 1 = false -> Z.testbit flags 2 = false -> d_maxit d <> 0).
Proof.
  intros ops log p pr m flags iters p' hash eph route k d Hw H Hn Hodd Hst Hf. pose proof (reach _ _ _ Hw H Hn) as HI.
  cbn [step] in Hst. injection Hst as Hst. unfold pool4db_update in Hst.
  assert (B0 : (Z.land flags ITERATIONS_SET =? 0) = false).
  { unfold ITERATIONS_SET. change 1 with (2^0). rewrite land_bit by lia. rewrite Z.bit0_odd, Hodd. reflexivity. }
  destruct (max_iterations_validate flags iters) eqn:Hv; [|discriminate].
  destruct (get_trees p pr) as [t|] eqn:Hg; [|discriminate]. apply get_trees_of in Hg. destruct Hg as [-> Hp].
  destruct (tree_find m (tmark (trees_of p pr))) as [tb|] eqn:Hfm; [|discriminate]. rewrite B0 in Hst. injection Hst as <-.
  assert (B1 : (Z.land flags ITERATIONS_AUTO =? 0) = negb (Z.testbit flags 1)) by (apply (land_bit flags 1); lia).
  assert (B2 : (Z.land flags ITERATIONS_INFINITE =? 0) = negb (Z.testbit flags 2)) by (apply (land_bit flags 2); lia).
  destruct (proj2 (proj1 (proj1 (HI pr))) _ _ (find_in _ _ _ Hfm)) as (_ & _ & _ & Hu).
  unfold max_iterations_validate in Hv. rewrite B0, B1, B2 in Hv. rewrite !negb_involutive in Hv.
  set (p' := set_trees _ _ _) in Hf.
  assert (Hfm' : tree_find m (tmark (trees_of p' pr)) = Some (Tb (t_count tb) (t_ranges tb) iters flags)).
  { unfold p'. rewrite trees_set_same by exact Hp. cbn [tmark].
    rewrite find_replace, Z.eqb_refl by (apply in_map_iff; exists (m, tb); split; [reflexivity|apply find_in; exact Hfm]). reflexivity. }
  assert (He : pool_is_empty p' = false).
  { destruct (pool_is_empty p') eqn:He; [|reflexivity]. rewrite empty_iff in He. rewrite He in Hfm'. discriminate. }
  assert (Hg' : get_trees p' pr = Some (trees_of p' pr)) by (destruct pr; try reflexivity; congruence).
  assert (Ed : d_maxit d = compute_max_iterations (Tb (t_count tb) (t_ranges tb) iters flags) /\ d_count d = t_count tb).
  { unfold mask_domain_find in Hf. rewrite He, Hg', Hfm' in Hf. cbn [t_count t_ranges] in Hf. destruct k; [discriminate| |];
      (destruct (t_count tb =? 0); [discriminate|]; destruct (place _ _ _) as [[i port]|]; [|discriminate]; injection Hf as <-; auto). }
  destruct Ed as [-> ->]. unfold compute_max_iterations, limit. cbn [t_flags t_maxit t_count]. rewrite B1, B2, !negb_involutive.
  rewrite Z.shiftr_div_pow2 by lia. change (2^7) with 128.
  destruct (Z.testbit flags 2), (Z.testbit flags 1); cbn [negb andb] in *; try discriminate.
  - split; [reflexivity|]. discriminate.
  - split; [|discriminate]. destruct (t_count tb / 128 <? 1024) eqn:E1; [lia|]. destruct (8192 <? t_count tb / 128) eqn:E2; lia.
  - split; [reflexivity|]. intros _ _. destruct (iters =? 0) eqn:E; [discriminate|]. lia.
Qed.
Print Assumptions C52_limit.
Example C52_limit_witness : exists log p p' d, run pool4db_alloc [] ex12 = Ok (log, p) /\ step p (OUpdate TCP 0 1 5) = Ok (OK, p') /\
  mask_domain_find p' TCP 0 3 4 None KStay = Ok (Domain d) /\ d_maxit d = 5.
Proof. eexists _, _, _, _. repeat (split; [vm_compute; reflexivity|]). reflexivity. Qed.
