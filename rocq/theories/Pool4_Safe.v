From Coq Require FinFun.
Require Import Verif.Base Verif.Addr_Model Verif.Addr_Spec Verif.Addr_Proofs Verif.Rtrie_Model.
Require Import Verif.Pool4_Model Verif.Pool4_Spec Verif.Pool4_Proofs Verif.Pool4_Trees Verif.Pool4_Hist Verif.Pool4_Lookup.
Local Ltac Zify.zify_post_hook ::= idtac.

Lemma draw_calm : forall m k m', draw m = (k, m') -> calm m -> calm m' /\ k <> KMove.
Proof.
  intros [|x m] k m' H Hc; cbn in H; injection H as <- <-; [split; [exact Hc|discriminate]|].
  unfold calm in *. cbn [In] in Hc. split; [tauto|]. intros ->. tauto.
Qed.
Lemma draw_plenty : forall m k m', draw m = (k, m') -> plenty m -> plenty m' /\ k <> KFail.
Proof.
  intros [|x m] k m' H Hc; cbn in H; injection H as <- <-; [split; [exact Hc|discriminate]|].
  unfold plenty in *. cbn [In] in Hc. split; [tauto|]. intros ->. tauto.
Qed.

Lemma rm_loop_total : forall l c p lo hi m, calm m \/ no_hole l p lo hi ->
  exists x c' l' m', rm_loop c l p lo hi m = Ok (x, c', l', m') /\ (calm m -> calm m') /\ (plenty m -> x = OK /\ plenty m').
Proof.
  induction l as [|e l IH]; intros c p lo hi m Hm; cbn [rm_loop].
  { exists OK, c, [], m. auto. }
  assert (Hm' : calm m \/ no_hole l p lo hi) by (destruct Hm as [Hm|Hm]; [left; exact Hm|right; intros x Hx; apply Hm; right; exact Hx]).
  destruct (prefix4_contains p (r_addr e)) eqn:Ep; cbn [negb].
  2:{ destruct (IH c p lo hi m Hm') as (x & c' & l' & m' & -> & H1 & H2). cbn [bind]. eauto 10. }
  destruct ((lo <=? r_min e) && (r_max e <=? hi))%bool eqn:E1.
  { apply IH. exact Hm'. }
  destruct ((r_min e <? lo) && (hi <? r_max e))%bool eqn:E2.
  { destruct Hm as [Hm|Hm].
    2:{ exfalso. apply (Hm e (or_introl eq_refl) Ep). lia. }
    destruct (draw m) as [k m1] eqn:Ed. destruct (draw_calm _ _ _ Ed Hm) as [C1 C2]. destruct k.
    - eexists _, _, _, _. split; [reflexivity|]. split; [auto|]. intros Hp. destruct (draw_plenty _ _ _ Ed Hp). congruence.
    - match goal with |- context [rm_loop ?c _ _ _ _ m1] => destruct (IH c p lo hi m1 (or_introl C1)) as (x & c' & l' & m' & -> & H1 & H2) end.
      cbn [bind]. eexists _, _, _, _. split; [reflexivity|]. split; [auto|]. intros Hp. apply H2. apply (draw_plenty _ _ _ Ed Hp).
    - congruence. }
  destruct ((hi <? r_min e) || (r_max e <? lo))%bool.
  { destruct (IH c p lo hi m Hm') as (x & c' & l' & m' & -> & H1 & H2). cbn [bind]. eauto 10. }
  destruct (r_min e <? lo).
  { match goal with |- context [rm_loop ?c _ _ _ _ m] => destruct (IH c p lo hi m Hm') as (x & c' & l' & m' & -> & H1 & H2) end. cbn [bind]. eauto 10. }
  destruct (hi <? r_max e).
  { match goal with |- context [rm_loop ?c _ _ _ _ m] => destruct (IH c p lo hi m Hm') as (x & c' & l' & m' & -> & H1 & H2) end. cbn [bind]. eauto 10. }
  destruct (IH c p lo hi m Hm') as (x & c' & l' & m' & -> & H1 & H2). cbn [bind]. eauto 10.
Qed.

Lemma remove_total : forall tr k tb p lo hi m, calm m \/ no_hole (t_ranges tb) p lo hi ->
  exists x tr' m', remove_range tr k tb p lo hi m = Ok (x, tr', m') /\ (calm m -> calm m') /\ (plenty m -> x = OK /\ plenty m').
Proof.
  intros tr k tb p lo hi m Hm. unfold remove_range.
  destruct (rm_loop_total (t_ranges tb) (t_count tb) p lo hi m Hm) as (x & c' & l' & m' & -> & H1 & H2). cbn [bind]. eauto 10.
Qed.

(** the keys are tables of their own address; only their own is changed *)
Lemma rm_tables_total : forall keys tr p lo hi m,
  NoDup keys -> (forall k, In k keys -> In k (map fst tr)) ->
  (calm m \/ forall k tb, In k keys -> tree_find k tr = Some tb -> no_hole (t_ranges tb) p lo hi) ->
  exists x tr' m', rm_tables keys tr p lo hi m = Ok (x, tr', m') /\ (plenty m -> x = OK).
Proof.
  induction keys as [|k keys IH]; intros tr p lo hi m Nd Hk Hm; cbn [rm_tables].
  { exists OK, tr, m. auto. }
  apply NoDup_cons_iff in Nd. destruct Nd as [Nk Nd].
  destruct (tree_find k tr) as [tb|] eqn:Hf.
  2:{ exfalso. apply find_none in Hf. apply Hf, Hk. left. reflexivity. }
  destruct (remove_total tr k tb p lo hi m) as (x & tr' & m' & E & H1 & H2).
  { destruct Hm as [Hm|Hm]; [left; exact Hm|right; apply (Hm k tb (or_introl eq_refl) Hf)]. }
  rewrite E. cbn [bind]. destruct x as [|x].
  2:{ eexists _, _, _. split; [reflexivity|]. intros Hp. apply H2 in Hp. destruct Hp; discriminate. }
  unfold remove_range in E. destruct (rm_loop _ _ _ _ _ _) as [[[[y c'] l'] m2]| |] eqn:E2; cbn [bind] in E; try discriminate.
  injection E as -> <- ->.
  assert (Hother : forall k', k' <> k -> tree_find k' (match l' with [] => tree_erase k tr | _ => tree_replace k tr (Tb c' l' (t_maxit tb) (t_flags tb)) end) = tree_find k' tr).
  { intros k' Hne. destruct l'.
    - rewrite find_erase. replace (k =? k') with false by lia. reflexivity.
    - rewrite find_replace by (apply Hk; left; reflexivity). replace (k =? k') with false by lia. reflexivity. }
  destruct (IH (match l' with [] => tree_erase k tr | _ => tree_replace k tr (Tb c' l' (t_maxit tb) (t_flags tb)) end) p lo hi m' Nd) as (x & tr2 & m3 & E3 & H3).
  - intros k' Hk'. assert (Hne : k' <> k) by (intros ->; auto).
    destruct (tree_find k' tr) as [tb'|] eqn:Hf'.
    + rewrite <- (Hother k' Hne) in Hf'. apply find_in in Hf'. apply in_map_iff. exists (k', tb'). auto.
    + exfalso. apply find_none in Hf'. apply Hf', Hk. right. exact Hk'.
  - destruct Hm as [Hm|Hm]; [left; auto|right]. intros k' tb' Hi Hf'. assert (Hne : k' <> k) by (intros ->; auto).
    rewrite Hother in Hf' by exact Hne. apply (Hm k' tb'); [right; exact Hi|exact Hf'].
  - exists x, tr2, m3. split; [exact E3|]. intros Hp. apply H3. apply H2. exact Hp.
Qed.

Lemma add_range_total : forall tb n m r tb' pl m', pool4_add_range tb n m = (r, tb', pl, m') ->
  (calm m -> pl = Same /\ calm m') /\ (plenty m -> r = OK /\ plenty m').
Proof.
  intros tb n m r tb' pl m' H. unfold pool4_add_range in H.
  assert (L : forall l c k r c' l' pl, add_range_loop c l n k = (r, c', l', pl) -> (k <> KMove -> pl = Same) /\ (k <> KFail -> r = OK)).
  { clear. induction l as [|e l IH]; intros c k r c' l' pl H; cbn [add_range_loop] in H.
    - destruct k; injection H as <- <- <- <-; split; congruence.
    - destruct (compare_range e n).
      + destruct (fix_collisions _ _ _). injection H as <- <- <- <-. auto.
      + destruct (add_range_loop c l n k) as [[[r1 c1] l1] p1] eqn:E. injection H as <- <- <- <-. eapply IH. exact E.
      + destruct k; injection H as <- <- <- <-; split; congruence. }
  destruct (needs_slot (t_ranges tb) n).
  - destruct (draw m) as [k m1] eqn:Ed. destruct (add_range_loop _ _ n k) as [[[r1 c1] l1] p1] eqn:E. injection H as <- <- <- <-.
    destruct (L _ _ _ _ _ _ _ E) as [L1 L2]. split; intros Hc.
    + destruct (draw_calm _ _ _ Ed Hc). auto.
    + destruct (draw_plenty _ _ _ Ed Hc). auto.
  - destruct (add_range_loop _ _ n KStay) as [[[r1 c1] l1] p1] eqn:E. injection H as <- <- <- <-.
    destruct (L _ _ _ _ _ _ _ E) as [L1 L2]. split; intros Hc; (split; [|exact Hc]); [apply L1|apply L2]; discriminate.
Qed.

Lemma add_mark_total : forall t e n m, calm m \/ Z.land (pe_flags e) ITERATIONS_SET = 0 ->
  exists r t' m', add_to_mark_tree t e n m = Ok (r, t', m') /\ (calm m -> calm m') /\ (plenty m -> r = OK /\ plenty m').
Proof.
  intros t e n m Hm. unfold add_to_mark_tree. destruct (tree_find (pe_mark e) (tmark t)) as [tb|].
  - destruct (pool4_add_range tb n m) as [[[r tb'] pl] m1] eqn:E. destruct (add_range_total _ _ _ _ _ _ _ E) as [H1 H2].
    destruct r as [|x].
    2:{ eexists _, _, _. split; [reflexivity|]. split; [apply H1|]. exact H2. }
    destruct (Z.land (pe_flags e) ITERATIONS_SET =? 0) eqn:Ef.
    { eexists _, _, _. split; [reflexivity|]. split; [apply H1|exact H2]. }
    destruct Hm as [Hm|Hm]; [|lia]. destruct (H1 Hm) as [-> Hc]. eexists _, _, _. split; [reflexivity|]. auto.
  - destruct (draw m) as [k m1] eqn:Ed. pose proof (draw_calm _ _ _ Ed) as D1. pose proof (draw_plenty _ _ _ Ed) as D2.
    destruct k; (eexists _, _, _; split; [reflexivity|]; split; [apply D1|]).
    + intros Hp. destruct (D2 Hp). congruence.
    + intros Hp. split; [reflexivity|apply D2; exact Hp].
    + intros Hp. split; [reflexivity|apply D2; exact Hp].
Qed.

Lemma add_addr_total : forall t n m r t' m', add_to_addr_tree t n m = (r, t', m') -> (calm m -> calm m') /\ (plenty m -> r = OK /\ plenty m').
Proof.
  intros t n m r t' m' H. unfold add_to_addr_tree in H. destruct (tree_find (r_addr n) (taddr t)) as [tb|].
  - destruct (pool4_add_range tb n m) as [[[r1 tb'] pl] m1] eqn:E. injection H as <- <- <-.
    destruct (add_range_total _ _ _ _ _ _ _ E) as [H1 H2]. split; [apply H1|exact H2].
  - destruct (draw m) as [k m1] eqn:Ed. pose proof (draw_calm _ _ _ Ed) as D1. pose proof (draw_plenty _ _ _ Ed) as D2.
    destruct k; injection H as <- <- <-; (split; [apply D1|]).
    + intros Hp. destruct (D2 Hp). congruence.
    + intros Hp. split; [reflexivity|apply D2; exact Hp].
    + intros Hp. split; [reflexivity|apply D2; exact Hp].
Qed.

Lemma add_addrs_total : forall addrs t e lo hi m, calm m \/ Z.land (pe_flags e) ITERATIONS_SET = 0 ->
  exists r t' m', add_addrs t e lo hi addrs m = Ok (r, t', m') /\ (plenty m -> r = OK).
Proof.
  induction addrs as [|a addrs IH]; intros t e lo hi m Hm; cbn [add_addrs].
  { eexists _, _, _. split; [reflexivity|]. auto. }
  destruct (add_mark_total t e (Rg a 32 lo hi) m Hm) as (r & t' & m' & -> & H1 & H2). cbn [bind].
  destruct r as [|x].
  2:{ eexists _, _, _. split; [reflexivity|]. intros Hp. apply H2 in Hp. destruct Hp; discriminate. }
  destruct (add_to_addr_tree t' (Rg a 32 lo hi) m') as [[r2 t2] m2] eqn:E. destruct (add_addr_total _ _ _ _ _ _ E) as [H3 H4].
  destruct r2 as [|x].
  2:{ eexists _, _, _. split; [reflexivity|]. intros Hp. apply H2 in Hp. destruct Hp as [_ Hp]. apply H4 in Hp. destruct Hp; discriminate. }
  destruct (IH t2 e lo hi m2) as (r & t3 & m3 & -> & H5).
  { destruct Hm as [Hm|Hm]; [left; auto|right; exact Hm]. }
  eexists _, _, _. split; [reflexivity|]. intros Hp. apply H2 in Hp. destruct Hp as [_ Hp]. apply H4 in Hp. apply H5, Hp.
Qed.

Definition op_mem (o : op) : mem := match o with OAdd _ _ _ m => m | ORm _ _ _ m => m | _ => [] end.

Lemma no_hole_in : forall p pr (tr : tree) k tb r lo hi (P : Z -> Z -> Prop),
  trees_of p pr = trees_of p pr -> tree_ok tr -> tree_find k tr = Some tb -> wt_range r -> prefix4_validate (range_prefix r) = OK ->
  0 <= lo -> lo <= hi -> (forall a q, inr (t_ranges tb) a q -> P a q) ->
  (forall a, in_prefix 32 (r_addr r) (r_len r) a -> ~ (P a (lo - 1) /\ P a (hi + 1))) ->
  no_hole (t_ranges tb) (range_prefix r) lo hi.
Proof.
  intros p pr tr k tb r lo hi P _ Hok Hf W4 Hva B1 B2 HP Hno e He Hc [Hlt Hgt].
  pose proof (range_prefix_wt _ W4) as Wp. pose proof (proj1 (prefix4_validate_spec _ Wp) Hva) as [Hlen _].
  assert (Hl0 : 0 <= p4_len (range_prefix r)) by (destruct Wp as [_ Hl]; unfold is_u8 in Hl; lia).
  destruct (proj2 Hok _ _ (find_in _ _ _ Hf)) as (_ & T2 & _). rewrite Forall_forall in T2. pose proof (T2 e He) as We.
  assert (Hin : in_prefix 32 (r_addr r) (r_len r) (r_addr e)).
  { apply (prefix4_contains_spec (range_prefix r)) in Hc; auto; [apply Wp|apply We]. }
  apply (Hno (r_addr e) Hin). unfold wfr in We.
  split; apply HP; exists e; (split; [exact He|]); (split; [reflexivity|lia]).
Qed.

Lemma steady_ok : forall log p o, PInv log p -> wt_op o -> steady log o ->
  exists r p', step p o = Ok (r, p') /\ (plenty (op_mem o) -> r <> Err ENOMEM).
Proof.
  intros log p o HI Hw Hs. destruct o; cbn [step steady op_mem] in *.
  - unfold pool4db_add. destruct (prefix4_validate (range_prefix (pe_range e))) eqn:Hva.
    2:{ eexists _, _. split; [reflexivity|]. intros _. unfold prefix4_validate in Hva. destruct (_ >? 32); [injection Hva as <-; discriminate|].
        destruct (negb _); [injection Hva as <-; discriminate|discriminate]. }
    destruct (max_iterations_validate (pe_flags e) (pe_iter e)) eqn:Hmi.
    2:{ eexists _, _. split; [reflexivity|]. intros _. unfold max_iterations_validate in Hmi.
        destruct (Z.land (pe_flags e) ITERATIONS_SET =? 0); [discriminate|].
        destruct (_ && _)%bool; [injection Hmi as <-; discriminate|]. destruct (_ && _ && _)%bool; [injection Hmi as <-; discriminate|discriminate]. }
    destruct (ephemeral_clash e eph force); [eexists _, _; split; [reflexivity|]; discriminate|].
    destruct (get_trees p (pe_proto e)) as [t|]; [|eexists _, _; split; [reflexivity|]; discriminate].
    destruct (add_ports e) as [lo hi].
    destruct (add_addrs_total (prefix4_addrs (range_prefix (pe_range e))) t e lo hi m) as (r & t' & m' & -> & H).
    { destruct Hs as [Hs|Hs]; [left; exact Hs|right]. unfold ITERATIONS_SET. change 1 with (Z.ones 1). rewrite Z.land_ones by lia.
      change (2^1) with 2. rewrite Zmod_odd, Hs. reflexivity. }
    cbn [bind]. eexists _, _. split; [reflexivity|]. intros Hp. rewrite (H Hp). discriminate.
  - destruct Hw as (W1 & W4). unfold pool4db_rm.
    destruct (prefix4_validate (range_prefix r)) eqn:Hva.
    2:{ eexists _, _. split; [reflexivity|]. intros _. unfold prefix4_validate in Hva. destruct (_ >? 32); [injection Hva as <-; discriminate|].
        destruct (negb _); [injection Hva as <-; discriminate|discriminate]. }
    destruct (get_trees p pr) as [t|] eqn:Hg; [|eexists _, _; split; [reflexivity|]; discriminate].
    apply get_trees_of in Hg. destruct Hg as [-> Hp].
    set (lo := Z.min (r_min r) (r_max r)) in *. set (hi := Z.max (r_min r) (r_max r)) in *.
    assert (B : 0 <= lo /\ lo <= hi /\ hi <= 65535) by (destruct W4 as (_ & _ & A1 & A2); unfold is_u16 in *; lia).
    destruct B as (B1 & B2 & B3).
    destruct (HI pr) as ((O1 & O1' & O1'') & O2 & O3).
    assert (R1 : exists x t' m', rm_from_mark_tree (trees_of p pr) mark (range_prefix r) lo hi m = Ok (x, t', m') /\ taddr t' = taddr (trees_of p pr) /\
                 (calm m -> calm m') /\ (plenty m -> x = OK /\ plenty m')).
    { unfold rm_from_mark_tree. destruct (tree_find mark (tmark (trees_of p pr))) as [tb|] eqn:Hf.
      2:{ eexists _, _, _. split; [reflexivity|]. auto. }
      destruct (remove_total (tmark (trees_of p pr)) mark tb (range_prefix r) lo hi m) as (x & tr' & m' & -> & H1 & H2).
      { destruct Hs as [Hs|Hs]; [left; exact Hs|right]. apply (no_hole_in p pr (tmark (trees_of p pr)) mark tb r lo hi (held log pr mark)); auto.
        - intros a q Hi. apply O2. exists tb. auto.
        - intros a Ha. apply (Hs a Ha). }
      cbn [bind]. eexists _, _, _. split; [reflexivity|]. auto. }
    destruct R1 as (x & t' & m' & -> & Ea & H1 & H2). cbn [bind].
    destruct x as [|x].
    2:{ eexists _, _. split; [reflexivity|]. intros Hpl. apply H2 in Hpl. destruct Hpl; discriminate. }
    unfold rm_from_addr_tree. rewrite Ea.
    destruct (rm_tables_total (filter (prefix4_contains (range_prefix r)) (map fst (taddr (trees_of p pr)))) (taddr (trees_of p pr)) (range_prefix r) lo hi m') as (y & tr2 & m2 & -> & H3).
    { apply NoDup_filter. apply O1'. }
    { intros k Hk. apply filter_In in Hk. apply Hk. }
    { destruct Hs as [Hs|Hs]; [left; auto|right]. intros k tb Hk Hf.
      apply (no_hole_in p pr (taddr (trees_of p pr)) k tb r lo hi (visible log pr)); auto.
      - intros a q Hi. apply O3. assert (Ht : tin (taddr (trees_of p pr)) k a q) by (exists tb; auto).
        pose proof (keyed_tin _ _ _ _ O1'' Ht). subst a. exact Ht.
      - intros a Ha. apply (Hs a Ha). }
    cbn [bind]. eexists _, _. split; [reflexivity|]. intros Hpl. rewrite H3; [discriminate|]. apply H2. exact Hpl.
  - eexists _, _. split; [reflexivity|]. discriminate.
  - destruct (pool4db_update p pr mark flags iters) as [r p'] eqn:E. eexists _, _. split; [reflexivity|]. intros _.
    unfold pool4db_update in E. destruct (max_iterations_validate flags iters) eqn:Hmi.
    + destruct (get_trees p pr) as [t|]; [|injection E as <- <-; discriminate].
      destruct (tree_find mark (tmark t)); [|injection E as <- <-; discriminate]. destruct (Z.land _ _ =? 0); injection E as <- <-; discriminate.
    + injection E as <- <-. unfold max_iterations_validate in Hmi.
      destruct (Z.land flags ITERATIONS_SET =? 0); [discriminate|].
      destruct (_ && _)%bool; [injection Hmi as <-; discriminate|]. destruct (_ && _ && _)%bool; [injection Hmi as <-; discriminate|discriminate].
Qed.

(** A history in which memory never runs out and blocks never move runs to the end. *)
Lemma calm_run : forall ops p log, PInv log p -> Forall wt_op ops -> Forall (fun o => calm (op_mem o) /\ plenty (op_mem o)) ops -> no_enomem log ->
  exists log' p', run p log ops = Ok (log', p') /\ no_enomem log'.
Proof.
  induction ops as [|o ops IH]; intros p log HI Hw Hc Hn; cbn [run].
  { eexists _, _. split; [reflexivity|exact Hn]. }
  pose proof (Forall_inv Hc) as [C1 C2]. pose proof (Forall_inv Hw) as W.
  destruct (steady_ok log p o HI W) as (r & p' & E & Hr).
  { destruct o; cbn [steady op_mem] in *; auto. }
  rewrite E. cbn [bind]. specialize (Hr C2). apply IH.
  - eapply step_ok; eauto.
  - apply (Forall_inv_tail Hw).
  - apply (Forall_inv_tail Hc).
  - intros o' [Ei|Hi]; [injection Ei as -> ->; congruence|apply (Hn o' Hi)].
Qed.
