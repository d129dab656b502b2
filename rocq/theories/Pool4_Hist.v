Require Import Verif.Base Verif.Addr_Model Verif.Addr_Spec Verif.Addr_Proofs Verif.Rtrie_Model.
Require Import Verif.Pool4_Model Verif.Pool4_Spec Verif.Pool4_Proofs Verif.Pool4_Trees.
Local Ltac Zify.zify_post_hook ::= idtac.

(** ** Removals *)
Lemma remove_range_ok : forall tr k tb p lo hi m r tr' m',
  tree_ok tr -> tree_find k tr = Some tb -> 0 <= lo -> lo <= hi -> hi <= 65535 ->
  remove_range tr k tb p lo hi m = Ok (r, tr', m') ->
  (r <> OK -> r = Err ENOMEM) /\
  (r = OK -> tree_ok tr' /\ (keyed tr -> keyed tr') /\
    (forall k' a q, tin tr' k' a q <-> tin tr k' a q /\ ~ (k' = k /\ hit p lo hi a q)) /\
    (forall k', k' <> k -> tree_find k' tr' = tree_find k' tr) /\
    (tsolid tr -> tsolid tr') /\
    (exact tr k -> no_hole (t_ranges tb) p lo hi -> exact tr' k)).
Proof.
  intros tr k tb p lo hi m r tr' m' [Hn Hok] Hf L0 Lh H0 H. unfold remove_range in H.
  destruct (rm_loop (t_count tb) (t_ranges tb) p lo hi m) as [[[[x c] l] m1]| |] eqn:E; cbn [bind] in H; try discriminate.
  injection H as <- <- <-. destruct (Hok _ _ (find_in _ _ _ Hf)) as (T1 & T2 & T3 & T4).
  destruct (rm_loop_ok _ _ _ _ _ _ _ _ _ _ L0 Lh H0 T2 T3 E) as [I1 I2].
  destruct I1 as [->|(-> & J1 & J2 & J3 & J4 & J5 & J6)]; [split; [auto|discriminate]|]. split; [congruence|intros _].
  assert (Hk : In k (map fst tr)) by (apply in_map_iff; exists (k, tb); split; [reflexivity|apply find_in; exact Hf]).
  assert (Hs : tsolid tr -> solid l) by (intros Hs; eapply rm_solid; [exact E|]; eapply Hs; apply find_in; exact Hf).
  destruct l as [|r0 l].
  - split; [|split; [|split; [|split; [|split]]]].
    + split; [apply nodup_erase; exact Hn|]. intros k' tb2 Hi. eapply Hok. eapply in_erase. exact Hi.
    + intros Hkey k' tb2 r Hi Hr. eapply Hkey; [eapply in_erase; exact Hi|exact Hr].
    + intros k' a q. unfold tin. rewrite find_erase. destruct (k =? k') eqn:E2.
      * assert (k' = k) by lia. subst k'. rewrite Hf. split; [intros (? & ? & _); discriminate|].
        intros [(tb2 & [= <-] & Hi) Hh]. exfalso. apply (inr_nil a q). rewrite J3. split; [exact Hi|]. intros Hc. apply Hh. auto.
      * split; [intros H; split; [exact H|intros [? _]; lia]|tauto].
    + intros k' Hne. rewrite find_erase. replace (k =? k') with false by lia. reflexivity.
    + intros Hso k' tb2 Hi. eapply Hso. eapply in_erase. exact Hi.
    + intros _ _ tb2 Hf2. rewrite find_erase, Z.eqb_refl in Hf2. discriminate.
  - set (tb' := Tb c (r0 :: l) (t_maxit tb) (t_flags tb)).
    split; [|split; [|split; [|split; [|split]]]].
    + split; [rewrite keys_replace; exact Hn|]. intros k' tb2 Hi. apply in_replace in Hi.
      destruct Hi as [Ei|Hi]; [|eapply Hok; exact Hi]. injection Ei as -> ->. unfold tab_ok, tb'. cbn [t_ranges t_count].
      split; [discriminate|]. auto.
    + intros Hkey k' tb2 r Hi Hr. apply in_replace in Hi. destruct Hi as [Ei|Hi]; [|eapply Hkey; eauto].
      injection Ei as -> ->. unfold tb' in Hr. cbn [t_ranges] in Hr. destruct (J5 r Hr) as (y & Hy & <-).
      eapply Hkey; [apply find_in; exact Hf|exact Hy].
    + intros k' a q. unfold tin. rewrite find_replace by exact Hk. destruct (k =? k') eqn:E2.
      * assert (k' = k) by lia. subst k'. rewrite Hf. split.
        -- intros (tb2 & [= <-] & Hi). unfold tb' in Hi. cbn [t_ranges] in Hi. rewrite J3 in Hi. destruct Hi as [Hi Hh].
           split; [eauto|]. tauto.
        -- intros [(tb2 & [= <-] & Hi) Hh]. exists tb'. split; [reflexivity|]. unfold tb'. cbn [t_ranges]. rewrite J3. tauto.
      * split; [intros H; split; [exact H|intros [? _]; lia]|tauto].
    + intros k' Hne. rewrite find_replace by exact Hk. replace (k =? k') with false by lia. reflexivity.
    + intros Hso k' tb2 Hi. apply in_replace in Hi. destruct Hi as [Ei|Hi]; [|eapply Hso; exact Hi].
      injection Ei as -> ->. apply Hs. exact Hso.
    + intros Hex Hnh tb2 Hf2. rewrite find_replace, Z.eqb_refl in Hf2 by exact Hk. injection Hf2 as <-.
      unfold tb'. cbn [t_count t_ranges]. rewrite J6 by exact Hnh. specialize (Hex tb Hf).
      replace (t_count tb + total (r0 :: l) - total (t_ranges tb)) with (t_count tb + (total (r0 :: l) - total (t_ranges tb))) by lia.
      rewrite <- u32_idem, Hex, u32_idem. f_equal. lia.
Qed.

Lemma rm_mark_ok : forall t mark p lo hi m r t' m',
  tree_ok (tmark t) -> 0 <= lo -> lo <= hi -> hi <= 65535 ->
  rm_from_mark_tree t mark p lo hi m = Ok (r, t', m') ->
  taddr t' = taddr t /\ (r <> OK -> r = Err ENOMEM) /\
  (r = OK -> tree_ok (tmark t') /\
    (forall k' a q, tin (tmark t') k' a q <-> tin (tmark t) k' a q /\ ~ (k' = mark /\ hit p lo hi a q)) /\
    (forall k', k' <> mark -> tree_find k' (tmark t') = tree_find k' (tmark t)) /\
    (tsolid (tmark t) -> tsolid (tmark t')) /\
    (exact (tmark t) mark -> (forall tb, tree_find mark (tmark t) = Some tb -> no_hole (t_ranges tb) p lo hi) -> exact (tmark t') mark)).
Proof.
  intros t mark p lo hi m r t' m' Hok L0 Lh H0 H. unfold rm_from_mark_tree in H.
  destruct (tree_find mark (tmark t)) as [tb|] eqn:Hf.
  - destruct (remove_range (tmark t) mark tb p lo hi m) as [[[x tr] m1]| |] eqn:E; cbn [bind] in H; try discriminate.
    injection H as <- <- <-. cbn [tmark taddr]. destruct (remove_range_ok _ _ _ _ _ _ _ _ _ _ Hok Hf L0 Lh H0 E) as [I1 I2].
    split; [reflexivity|]. split; [exact I1|]. intros Hr. destruct (I2 Hr) as (J1 & _ & J2 & J3 & J4 & J5).
    split; [exact J1|]. split; [exact J2|]. split; [exact J3|]. split; [exact J4|]. intros Hex Hnh. apply J5; auto.
  - injection H as <- <- <-. split; [reflexivity|]. split; [congruence|]. intros _. split; [exact Hok|]. split.
    + intros k' a q. split; [|tauto]. intros Ht. split; [exact Ht|]. intros [-> _]. destruct Ht as (tb & Hf2 & _). congruence.
    + auto.
Qed.

Lemma rm_tables_ok : forall keys tr p lo hi m r tr' m',
  tree_ok tr -> keyed tr -> 0 <= lo -> lo <= hi -> hi <= 65535 ->
  rm_tables keys tr p lo hi m = Ok (r, tr', m') ->
  (r <> OK -> r = Err ENOMEM) /\
  (r = OK -> tree_ok tr' /\ keyed tr' /\
    (forall k' a q, tin tr' k' a q <-> tin tr k' a q /\ ~ (In k' keys /\ hit p lo hi a q))).
Proof.
  induction keys as [|k keys IH]; intros tr p lo hi m r tr' m' Hok Hkey L0 Lh H0 H; cbn [rm_tables] in H.
  { injection H as <- <- <-. split; [congruence|]. intros _. split; [exact Hok|]. split; [exact Hkey|]. cbn [In]. intros; tauto. }
  destruct (tree_find k tr) as [tb|] eqn:Hf.
  - destruct (remove_range tr k tb p lo hi m) as [[[x tr1] m1]| |] eqn:E; cbn [bind] in H; try discriminate.
    destruct (remove_range_ok _ _ _ _ _ _ _ _ _ _ Hok Hf L0 Lh H0 E) as [I1 I2].
    destruct x as [|x]; [|injection H as <- <- <-; split; [exact I1|discriminate]].
    destruct (I2 eq_refl) as (J1 & J2 & J3 & _). destruct (IH _ _ _ _ _ _ _ _ J1 (J2 Hkey) L0 Lh H0 H) as [K1 K2].
    split; [exact K1|]. intros Hr. destruct (K2 Hr) as (L1 & L2 & L3). split; [exact L1|]. split; [exact L2|].
    intros k' a q. rewrite L3, J3. cbn [In]. clear. intuition.
  - destruct (IH _ _ _ _ _ _ _ _ Hok Hkey L0 Lh H0 H) as [K1 K2].
    split; [exact K1|]. intros Hr. destruct (K2 Hr) as (L1 & L2 & L3). split; [exact L1|]. split; [exact L2|].
    intros k' a q. rewrite L3. cbn [In]. split; [intros [Ht Hn]; split; [exact Ht|]|clear; tauto].
    intros [[<-|Hi] Hh]; [destruct Ht as (tb & Hf2 & _); congruence|auto].
Qed.

(** ** The whole pool *)
Definition trees_of (p : pool4) (pr : proto) : trees :=
  match pr with TCP => p_tcp p | UDP => p_udp p | ICMP => p_icmp p | OTHER => no_trees end.

Lemma get_trees_of : forall p pr t, get_trees p pr = Some t -> t = trees_of p pr /\ pr <> OTHER.
Proof. intros p [] t H; cbn in *; split; congruence. Qed.
Lemma trees_set : forall p pr t pr', pr <> OTHER -> trees_of (set_trees p pr t) pr' = if (match pr, pr' with TCP, TCP | UDP, UDP | ICMP, ICMP => true | _, _ => false end) then t else trees_of p pr'.
Proof. intros p [] t [] H; try congruence; reflexivity. Qed.
Lemma trees_set_same : forall p pr t, pr <> OTHER -> trees_of (set_trees p pr t) pr = t.
Proof. intros p [] t H; try congruence; reflexivity. Qed.
Lemma trees_set_other : forall p pr t pr', pr <> pr' -> trees_of (set_trees p pr t) pr' = trees_of p pr'.
Proof. intros p [] t [] H; try congruence; reflexivity. Qed.

Definition PInv (log : list (op * rc)) (p : pool4) : Prop :=
  forall pr, trees_ok (trees_of p pr) /\
    (forall m a q, tin (tmark (trees_of p pr)) m a q <-> held log pr m a q) /\
    (forall a q, tin (taddr (trees_of p pr)) a a q <-> visible log pr a q).

Lemma keyed_tin : forall tr k a q, keyed tr -> tin tr k a q -> k = a.
Proof.
  intros tr k a q Hk (tb & Hf & r & Hr & <- & _). symmetry. eapply Hk; [apply find_in; exact Hf|exact Hr].
Qed.

Lemma PInv_same : forall log o r p, PInv log p ->
  (forall pr m a q, held ((o, r) :: log) pr m a q <-> held log pr m a q) ->
  (forall pr a q, visible ((o, r) :: log) pr a q <-> visible log pr a q) ->
  PInv ((o, r) :: log) p.
Proof.
  intros log o r p H H1 H2 pr. destruct (H pr) as (A & B & C). split; [exact A|]. split; intros; [rewrite H1; apply B|rewrite H2; apply C].
Qed.

Lemma held_err : forall o x log pr m a q, o <> OFlush -> held ((o, Err x) :: log) pr m a q <-> held log pr m a q.
Proof. intros o x log pr m' a q Ho. destruct o; cbn [held]; try tauto; congruence. Qed.
Lemma visible_err : forall o x log pr a q, o <> OFlush -> visible ((o, Err x) :: log) pr a q <-> visible log pr a q.
Proof. intros o x log pr a q Ho. destruct o; cbn [visible]; try tauto; congruence. Qed.

(** The ports an addition stores *)
Lemma add_ports_ok : forall e lo hi, wt_range (pe_range e) -> add_ports e = (lo, hi) ->
  0 <= lo /\ lo <= hi + 1 /\ hi <= 65535 /\ hi = Z.max (r_min (pe_range e)) (r_max (pe_range e)) /\
  Z.min (r_min (pe_range e)) (r_max (pe_range e)) <= lo /\
  (forall q, lo <= q <= hi <-> (r_min (pe_range e) <= q <= r_max (pe_range e) \/ r_max (pe_range e) <= q <= r_min (pe_range e)) /\ port_ok (pe_proto e) q).
Proof.
  intros e lo hi (_ & _ & H1 & H2) H. unfold is_u16 in *. unfold add_ports in H.
  set (mn := r_min (pe_range e)) in *. set (mx := r_max (pe_range e)) in *. change (2^16) with 65536 in *.
  unfold port_ok. destruct (pe_proto e); [destruct (Z.min mn mx =? 0) eqn:E| destruct (Z.min mn mx =? 0) eqn:E| |];
    injection H as <- <-; (split; [lia|]); (split; [lia|]); (split; [lia|]); (split; [reflexivity|]); (split; [lia|]);
    intros q; split; intros; lia.
Qed.

Lemma range_prefix_wt : forall r, wt_range r -> wt_prefix4 (range_prefix r).
Proof. intros r (H1 & H2 & _). split; assumption. Qed.

Lemma step_add : forall log p e eph force m r p', PInv log p -> wt_op (OAdd e eph force m) ->
  pool4db_add p e eph force m = Ok (r, p') -> r <> Err ENOMEM -> PInv ((OAdd e eph force m, r) :: log) p'.
Proof.
  intros log p e eph force m r p' HI Hw H Hr. destruct Hw as (W1 & W2 & W3 & W4).
  assert (Bad : forall x, Ok (Err x, p) = Ok (r, p') -> PInv ((OAdd e eph force m, r) :: log) p').
  { intros x E. injection E as <- <-. apply PInv_same; auto; intros; [apply held_err|apply visible_err]; discriminate. }
  unfold pool4db_add in H. destruct (prefix4_validate (range_prefix (pe_range e))) eqn:Hv; [|eapply Bad; exact H].
  destruct (max_iterations_validate (pe_flags e) (pe_iter e)) eqn:Hm; [|eapply Bad; exact H].
  destruct (ephemeral_clash e eph force); [eapply Bad; exact H|].
  destruct (get_trees p (pe_proto e)) as [t|] eqn:Hg; [|eapply Bad; exact H].
  apply get_trees_of in Hg. destruct Hg as [-> Hp].
  destruct (add_ports e) as [lo hi] eqn:Hports. destruct (add_ports_ok _ _ _ W4 Hports) as (P1 & P2 & P3 & P4 & P5 & P6).
  destruct (add_addrs (trees_of p (pe_proto e)) e lo hi (prefix4_addrs (range_prefix (pe_range e))) m) as [[[x t'] m']| |] eqn:E;
    cbn [bind] in H; try discriminate. injection H as <- <-.
  destruct (HI (pe_proto e)) as (O1 & O2 & O3).
  pose proof (range_prefix_wt _ W4) as Wp.
  destruct (add_addrs_ok _ _ _ _ _ _ _ _ _ O1 P1 P2 P3 (prefix4_addrs_nodup _) (prefix4_addrs_u32 _ Wp Hv) E) as [I1 I2].
  destruct x as [|x]; [|specialize (I1 ltac:(discriminate)); congruence].
  destruct (I2 eq_refl) as (J1 & J2 & J3 & _). clear I1 I2.
  intros pr. destruct (HI pr) as (Q1 & Q2 & Q3).
  assert (Cov : forall a q, In a (prefix4_addrs (range_prefix (pe_range e))) /\ lo <= q <= hi <-> covers (pe_range e) a q /\ port_ok (pe_proto e) q).
  { intros a q. rewrite prefix4_addrs_in by auto. rewrite P6. unfold covers. cbn [range_prefix p4_addr p4_len]. tauto. }
  assert (Dec : pe_proto e = pr \/ pe_proto e <> pr) by (destruct (pe_proto e), pr; auto; right; discriminate).
  destruct Dec as [<-|Hne].
  - rewrite trees_set_same by exact Hp. split; [exact J1|]. cbn [held visible]. split.
    + intros m0 a q. rewrite J2, O2. specialize (Cov a q). assert (Sy : m0 = pe_mark e <-> pe_mark e = m0) by (split; congruence).
      assert (Rf : pe_proto e = pe_proto e) by reflexivity. clear -Cov Sy Rf. tauto.
    + intros a q. rewrite J3, O3. specialize (Cov a q). assert (Rf : pe_proto e = pe_proto e) by reflexivity.
      assert (Ra : a = a) by reflexivity. clear -Cov Rf Ra. tauto.
  - rewrite trees_set_other by exact Hne. split; [exact Q1|]. cbn [held visible]. split; intros; [rewrite Q2|rewrite Q3]; tauto.
Qed.

Lemma step_rm : forall log p mark pr r m x p', PInv log p -> wt_op (ORm mark pr r m) ->
  pool4db_rm p mark pr r m = Ok (x, p') -> x <> Err ENOMEM -> PInv ((ORm mark pr r m, x) :: log) p'.
Proof.
  intros log p mark pr r m x p' HI Hw H Hr. destruct Hw as (W1 & W4).
  assert (Bad : forall y, Ok (Err y, p) = Ok (x, p') -> PInv ((ORm mark pr r m, x) :: log) p').
  { intros y E. injection E as <- <-. apply PInv_same; auto; intros; [apply held_err|apply visible_err]; discriminate. }
  unfold pool4db_rm in H. destruct (prefix4_validate (range_prefix r)) eqn:Hv; [|eapply Bad; exact H].
  destruct (get_trees p pr) as [t|] eqn:Hg; [|eapply Bad; exact H]. apply get_trees_of in Hg. destruct Hg as [-> Hp].
  set (lo := Z.min (r_min r) (r_max r)) in *. set (hi := Z.max (r_min r) (r_max r)) in *.
  assert (B : 0 <= lo /\ lo <= hi /\ hi <= 65535) by (destruct W4 as (_ & _ & A1 & A2); unfold is_u16 in *; lia).
  destruct B as (B1 & B2 & B3).
  destruct (rm_from_mark_tree (trees_of p pr) mark (range_prefix r) lo hi m) as [[[y t1] m1]| |] eqn:E1; cbn [bind] in H; try discriminate.
  destruct (HI pr) as ((O1 & O1' & O1'') & O2 & O3).
  destruct (rm_mark_ok _ _ _ _ _ _ _ _ _ O1 B1 B2 B3 E1) as (I0 & I1 & I2).
  destruct y as [|y]; [|injection H as <- <-; specialize (I1 ltac:(discriminate)); congruence].
  destruct (I2 eq_refl) as (J1 & J2 & _). clear I1 I2.
  unfold rm_from_addr_tree in H. rewrite I0 in H.
  destruct (rm_tables (filter (prefix4_contains (range_prefix r)) (map fst (taddr (trees_of p pr)))) (taddr (trees_of p pr)) (range_prefix r) lo hi m1)
    as [[[z tr] m2]| |] eqn:E2; cbn [bind] in H; try discriminate. injection H as <- <-.
  destruct (rm_tables_ok _ _ _ _ _ _ _ _ _ O1' O1'' B1 B2 B3 E2) as [K1 K2].
  destruct z as [|z]; [|specialize (K1 ltac:(discriminate)); congruence].
  destruct (K2 eq_refl) as (L1 & L2 & L3). clear K1 K2.
  pose proof (range_prefix_wt _ W4) as Wp.
  pose proof (proj1 (prefix4_validate_spec _ Wp) Hv) as [Hlen _].
  assert (Hl0 : 0 <= p4_len (range_prefix r)) by (destruct Wp as [_ Hl]; unfold is_u8 in Hl; lia).
  assert (Hit : forall a q, is_u32 a -> hit (range_prefix r) lo hi a q <-> covers r a q).
  { intros a q Ha. unfold hit, covers. rewrite prefix4_contains_spec by (auto; apply Wp). unfold range_prefix, lo, hi. cbn [p4_addr p4_len].
    split; intros [U V]; (split; [exact U|lia]). }
  assert (Tu : forall tr k a q, tree_ok tr -> tin tr k a q -> is_u32 a).
  { intros tr0 k a q [_ Hok] (tb & Hf & z & Hz & <- & _). destruct (Hok _ _ (find_in _ _ _ Hf)) as (_ & Hw & _).
    rewrite Forall_forall in Hw. apply Hw. exact Hz. }
  assert (Dec : forall pr', pr = pr' \/ pr <> pr') by (intros pr'; destruct pr, pr'; auto; right; discriminate).
  intros pr'. destruct (Dec pr') as [<-|Hne].
  - rewrite trees_set_same by exact Hp. cbn [tmark taddr]. split; [split; [exact J1|split; [exact L1|exact L2]]|]. cbn [held visible]. split.
    + intros m0 a q. rewrite J2, O2. split; (intros [Ht Hn]; split; [exact Ht|]; intros Hc; apply Hn).
      * pose proof (proj2 (O2 m0 a q) Ht) as Ht'. rewrite Hit by (eapply Tu; [|exact Ht']; auto).
        destruct Hc as (_ & -> & Hc). auto.
      * pose proof (proj2 (O2 m0 a q) Ht) as Ht'. rewrite Hit in Hc by (eapply Tu; [|exact Ht']; auto).
        destruct Hc as (-> & Hc). auto.
    + intros a q. rewrite L3, O3. split; (intros [Ht Hn]; split; [exact Ht|]; intros Hc; apply Hn).
      * pose proof (proj2 (O3 a q) Ht) as Ht'. pose proof (Tu _ _ _ _ O1' Ht') as Ua. destruct Hc as [_ Hc].
        split; [|apply Hit; auto]. apply filter_In. split.
        -- destruct Ht' as (tb & Hf & _). apply in_map_iff. exists (a, tb). split; [reflexivity|apply find_in; exact Hf].
        -- apply (Hit a q Ua) in Hc. apply Hc.
      * pose proof (proj2 (O3 a q) Ht) as Ht'. pose proof (Tu _ _ _ _ O1' Ht') as Ua. destruct Hc as [_ Hc].
        split; [reflexivity|]. apply Hit; auto.
  - destruct (HI pr') as (Q1 & Q2 & Q3). rewrite trees_set_other by exact Hne. split; [exact Q1|]. cbn [held visible].
    split; intros; [rewrite Q2|rewrite Q3]; tauto.
Qed.

Lemma PInv_flush : forall log p, PInv ((OFlush, OK) :: log) (pool4db_flush p).
Proof.
  intros log p pr. assert (E : trees_of (pool4db_flush p) pr = no_trees) by (destruct pr; reflexivity). rewrite E.
  split; [|split; intros; cbn [held visible]; split; [intros (tb & ? & _); discriminate|tauto|intros (tb & ? & _); discriminate|tauto]].
  split; [|split]; [split; [constructor|intros ? ? []]|split; [constructor|intros ? ? []]|intros ? ? ? []].
Qed.

Lemma tin_replace : forall tr k tb it, tree_find k tr = Some tb -> t_ranges it = t_ranges tb ->
  forall k' a q, tin (tree_replace k tr it) k' a q <-> tin tr k' a q.
Proof.
  intros tr k tb it Hf Er k' a q. unfold tin.
  assert (Hk : In k (map fst tr)) by (apply in_map_iff; exists (k, tb); split; [reflexivity|apply find_in; exact Hf]).
  rewrite find_replace by exact Hk. destruct (k =? k') eqn:E; [|reflexivity]. assert (k' = k) by lia. subst k'. rewrite Hf.
  split; intros (tb2 & [= <-] & Hi); eexists; (split; [reflexivity|]); congruence.
Qed.

Lemma step_update : forall log p pr mark flags iters r p', PInv log p ->
  pool4db_update p pr mark flags iters = (r, p') -> PInv ((OUpdate pr mark flags iters, r) :: log) p'.
Proof.
  intros log p pr mark flags iters r p' HI H.
  assert (Same : forall r', PInv ((OUpdate pr mark flags iters, r') :: log) p) by (intros r'; apply PInv_same; auto; intros; cbn [held visible]; destruct r'; tauto).
  unfold pool4db_update in H. destruct (max_iterations_validate flags iters); [|injection H as <- <-; apply Same].
  destruct (get_trees p pr) as [t|] eqn:Hg; [|injection H as <- <-; apply Same]. apply get_trees_of in Hg. destruct Hg as [-> Hp].
  destruct (tree_find mark (tmark (trees_of p pr))) as [tb|] eqn:Hf; [|injection H as <- <-; apply Same].
  destruct (Z.land flags ITERATIONS_SET =? 0); injection H as <- <-; [apply Same|].
  assert (Dec : forall pr', pr = pr' \/ pr <> pr') by (intros pr'; destruct pr, pr'; auto; right; discriminate).
  intros pr'. destruct (Dec pr') as [<-|Hne].
  - rewrite trees_set_same by exact Hp. cbn [tmark taddr held visible]. destruct (HI pr) as (((Q0 & Q1) & Q1' & Q1'') & Q2 & Q3).
    split; [split; [|split; [exact Q1'|exact Q1'']]|split; [|exact Q3]].
    + split; [cbn [tmark]; rewrite keys_replace; exact Q0|]. intros k tb2 Hi. apply in_replace in Hi.
      destruct Hi as [E|Hi]; [|eapply Q1; exact Hi]. injection E as -> ->. exact (Q1 _ _ (find_in _ _ _ Hf)).
    + intros m a q. rewrite (tin_replace _ _ tb); auto.
  - rewrite trees_set_other by exact Hne. exact (HI pr').
Qed.

Lemma PInv_init : PInv [] pool4db_alloc.
Proof.
  intros pr. assert (E : trees_of pool4db_alloc pr = no_trees) by (destruct pr; reflexivity). rewrite E.
  split; [|split; intros; cbn [held visible]; split; [intros (tb & ? & _); discriminate|tauto|intros (tb & ? & _); discriminate|tauto]].
  split; [|split]; [split; [constructor|intros ? ? []]|split; [constructor|intros ? ? []]|intros ? ? ? []].
Qed.

Lemma step_ok : forall log p o r p', PInv log p -> wt_op o -> step p o = Ok (r, p') -> r <> Err ENOMEM ->
  PInv ((o, r) :: log) p'.
Proof.
  intros log p o r p' HI Hw H Hr. destruct o; cbn [step] in H.
  - eapply step_add; eauto.
  - eapply step_rm; eauto.
  - injection H as <- <-. apply PInv_flush.
  - injection H as H. eapply step_update; eauto.
Qed.

Lemma run_app : forall ops p log log' p', run p log ops = Ok (log', p') -> exists l, log' = l ++ log.
Proof.
  induction ops as [|o ops IH]; intros p log log' p' H; cbn [run] in H.
  - injection H as <- <-. exists []. reflexivity.
  - destruct (step p o) as [[r p1]| |]; cbn [bind] in H; try discriminate. apply IH in H. destruct H as (l & ->).
    exists (l ++ [(o, r)]). rewrite <- app_assoc. reflexivity.
Qed.

Lemma run_ok : forall ops p log log' p', PInv log p -> Forall wt_op ops -> run p log ops = Ok (log', p') ->
  no_enomem log' -> PInv log' p'.
Proof.
  induction ops as [|o ops IH]; intros p log log' p' HI Hw H Hn; cbn [run] in H.
  - injection H as <- <-. exact HI.
  - destruct (step p o) as [[r p1]| |] eqn:E; cbn [bind] in H; try discriminate.
    destruct (run_app _ _ _ _ _ H) as (l & El).
    apply (IH p1 ((o, r) :: log)); auto; [|apply (Forall_inv_tail Hw)].
    eapply step_ok; eauto; [apply (Forall_inv Hw)|]. intros ->. apply (Hn o). rewrite El. apply in_or_app. right. left. reflexivity.
Qed.
