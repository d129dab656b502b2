From Coq Require FinFun.
Require Import Verif.Base Verif.Addr_Model Verif.Addr_Spec Verif.Addr_Proofs Verif.Rtrie_Model.
Require Import Verif.Pool4_Model Verif.Pool4_Spec Verif.Pool4_Proofs Verif.Pool4_Trees Verif.Pool4_Hist.
Local Ltac Zify.zify_post_hook ::= idtac.

Lemma ordered_nth : forall l i j x y, ordered l -> (i < j)%nat -> nth_error l i = Some x -> nth_error l j = Some y -> before x y.
Proof.
  induction l as [|r l IH]; intros i j x y Ho Hij Hi Hj; [destruct i; discriminate|]. destruct Ho as [H1 H2].
  destruct j as [|j]; [lia|]. cbn in Hj. destruct i as [|i]; cbn in Hi.
  - injection Hi as <-. apply H1. eapply nth_error_In. exact Hj.
  - apply (IH i j); auto. lia.
Qed.

Lemma find_port_ok : forall fuel l port first last k,
  Forall wfr l -> ordered l -> (forall r, In r l -> r_addr r = k) ->
  0 <= first -> first <= last -> last < Z.of_nat (length l) -> last - first < Z.of_nat fuel ->
  exists o, find_port_range l port fuel first last = Ok o /\
    match o with
    | Some r => In r l /\ r_min r <= port <= r_max r
    | None => forall i r, first <= Z.of_nat i <= last -> nth_error l i = Some r -> ~ r_min r <= port <= r_max r
    end.
Proof.
  induction fuel as [|fuel IH]; intros l port first last k Wl Ol Kl F0 Fl Ll Lf; [lia|]. cbn [find_port_range].
  set (mid := first + Z.quot (last - first) 2).
  assert (Hm : first <= mid <= last).
  { unfold mid. rewrite Z.quot_div_nonneg by lia. pose proof (Z.div_pos (last - first) 2 ltac:(lia) ltac:(lia)).
    pose proof (Z.div_le_upper_bound (last - first) 2 (last - first) ltac:(lia) ltac:(lia)). lia. }
  replace (mid <? 0) with false by lia.
  destruct (nth_error l (Z.to_nat mid)) as [r|] eqn:Hr; [|apply nth_error_None in Hr; lia].
  assert (Hin : In r l) by (eapply nth_error_In; exact Hr).
  assert (Wr : wfr r) by (rewrite Forall_forall in Wl; auto).
  assert (Right : port < r_min r -> forall i x, mid <= Z.of_nat i -> nth_error l i = Some x -> ~ r_min x <= port <= r_max x).
  { intros Hp i x Hi Hx. destruct (Z.eq_dec (Z.of_nat i) mid) as [E|E].
    - replace (Z.to_nat mid) with i in Hr by lia. rewrite Hr in Hx. injection Hx as <-. lia.
    - pose proof (ordered_nth l (Z.to_nat mid) i r x Ol ltac:(lia) Hr Hx) as B.
      pose proof (Kl r Hin) as K1. pose proof (Kl x (nth_error_In _ _ Hx)) as K2. unfold before, wfr in *. lia. }
  assert (Left : r_max r < port -> forall i x, Z.of_nat i <= mid -> nth_error l i = Some x -> ~ r_min x <= port <= r_max x).
  { intros Hp i x Hi Hx. destruct (Z.eq_dec (Z.of_nat i) mid) as [E|E].
    - replace (Z.to_nat mid) with i in Hr by lia. rewrite Hr in Hx. injection Hx as <-. lia.
    - pose proof (ordered_nth l i (Z.to_nat mid) x r Ol ltac:(lia) Hx Hr) as B.
      pose proof (Kl r Hin) as K1. pose proof (Kl x (nth_error_In _ _ Hx)) as K2. unfold before, wfr in *. lia. }
  destruct (port <? r_min r) eqn:E1.
  { destruct (first <=? mid - 1) eqn:E2.
    - destruct (IH l port first (mid - 1) k Wl Ol Kl) as (o & -> & Ho); try lia. exists o. split; [reflexivity|].
      destruct o; [exact Ho|]. intros i x Hi Hx. destruct (Z_le_gt_dec mid (Z.of_nat i)); [apply (Right ltac:(lia) i x); auto|].
      apply (Ho i x); auto. lia.
    - exists None. split; [reflexivity|]. intros i x Hi Hx. apply (Right ltac:(lia) i x); auto. lia. }
  destruct (r_max r <? port) eqn:E3.
  { destruct (mid + 1 <=? last) eqn:E2.
    - destruct (IH l port (mid + 1) last k Wl Ol Kl) as (o & -> & Ho); try lia. exists o. split; [reflexivity|].
      destruct o; [exact Ho|]. intros i x Hi Hx. destruct (Z_le_gt_dec (Z.of_nat i) mid); [apply (Left ltac:(lia) i x); auto|].
      apply (Ho i x); auto. lia.
    - exists None. split; [reflexivity|]. intros i x Hi Hx. apply (Left ltac:(lia) i x); auto. lia. }
  exists (Some r). split; [reflexivity|]. split; [exact Hin|lia].
Qed.

(** pool4db_contains on a pool that is not empty *)
Lemma contains_ok : forall log p ifas pr a q, PInv log p -> pool_is_empty p = false ->
  exists b, pool4db_contains p ifas pr a q = Ok b /\ (b = true <-> visible log pr a q).
Proof.
  intros log p ifas pr a q HI He. unfold pool4db_contains. rewrite He.
  destruct (HI pr) as ((_ & (Hn & Hok) & Hkey) & _ & Hv). specialize (Hv a q). setoid_rewrite <- Hv. unfold tin.
  destruct (get_trees p pr) as [t|] eqn:Hg.
  2:{ exists false. split; [reflexivity|]. destruct pr; try discriminate Hg. cbn. split; [discriminate|]. intros (tb & ? & _). discriminate. }
  apply get_trees_of in Hg. destruct Hg as [-> _].
  destruct (tree_find a (taddr (trees_of p pr))) as [tb|] eqn:Hf.
  2:{ exists false. split; [reflexivity|]. split; [discriminate|]. intros (tb & ? & _). discriminate. }
  pose proof (find_in _ _ _ Hf) as Hi. destruct (Hok _ _ Hi) as (T1 & T2 & T3 & _).
  set (n := length (t_ranges tb)).
  assert (Hlen : (0 < n)%nat) by (unfold n; destruct (t_ranges tb); [congruence|cbn; lia]).
  destruct (find_port_ok (S n) (t_ranges tb) q 0 (Z.of_nat n - 1) a) as (o & -> & Ho); auto; try lia.
  { intros r Hr. eapply Hkey; eauto. }
  cbn [bind]. eexists. split; [reflexivity|]. destruct o as [r|].
  - split; [|reflexivity]. intros _. exists tb. split; [reflexivity|]. destruct Ho as [Hr Hq]. exists r. split; [exact Hr|].
    split; [eapply Hkey; eauto|exact Hq].
  - split; [discriminate|]. intros (tb2 & [= <-] & r & Hr & _ & Hq). exfalso. apply In_nth_error in Hr. destruct Hr as (i & Hr).
    refine (Ho i r _ Hr Hq). assert (i < n)%nat by (apply nth_error_Some; congruence). lia.
Qed.

(** When is the pool empty? *)
Lemma empty_iff : forall p, pool_is_empty p = true <-> forall pr, tmark (trees_of p pr) = [].
Proof.
  intros p. unfold pool_is_empty. split.
  - intros H pr. destruct (tmark (p_tcp p)) eqn:E1; [|discriminate]. destruct (tmark (p_udp p)) eqn:E2; [|discriminate].
    destruct (tmark (p_icmp p)) eqn:E3; [|discriminate]. destruct pr; cbn [trees_of no_trees tmark]; auto.
  - intros H. pose proof (H TCP) as H1. pose proof (H UDP) as H2. pose proof (H ICMP) as H3. cbn [trees_of] in *. rewrite H1, H2, H3. reflexivity.
Qed.

Lemma held_not_empty : forall log p pr m a q, PInv log p -> held log pr m a q -> pool_is_empty p = false.
Proof.
  intros log p pr m a q HI Hh. destruct (pool_is_empty p) eqn:E; [|reflexivity]. exfalso.
  rewrite empty_iff in E. destruct (HI pr) as (_ & H2 & _). apply H2 in Hh. destruct Hh as (tb & Hf & _). rewrite E in Hf. discriminate.
Qed.

(** ** Solidity: no additions of an empty set *)
Definition psolid (p : pool4) : Prop := forall pr, tsolid (tmark (trees_of p pr)).

Lemma step_solid : forall log p o r p', PInv log p -> wt_op o -> step p o = Ok (r, p') -> r <> Err ENOMEM ->
  (r = OK -> not_vacuous o) -> psolid p -> psolid p'.
Proof.
  intros log p o r p' HI Hw H Hr Hv Hs. destruct o; cbn [step] in H.
  - destruct Hw as (W1 & W2 & W3 & W4). unfold pool4db_add in H.
    destruct (prefix4_validate (range_prefix (pe_range e))) eqn:Hva; [|injection H as <- <-; exact Hs].
    destruct (max_iterations_validate (pe_flags e) (pe_iter e)) eqn:Hm; [|injection H as <- <-; exact Hs].
    destruct (ephemeral_clash e eph force); [injection H as <- <-; exact Hs|].
    destruct (get_trees p (pe_proto e)) as [t|] eqn:Hg; [|injection H as <- <-; exact Hs].
    apply get_trees_of in Hg. destruct Hg as [-> Hp].
    destruct (add_ports e) as [lo hi] eqn:Hports. destruct (add_ports_ok _ _ _ W4 Hports) as (P1 & P2 & P3 & P4 & P5 & P6).
    destruct (add_addrs (trees_of p (pe_proto e)) e lo hi (prefix4_addrs (range_prefix (pe_range e))) m) as [[[x t'] m']| |] eqn:E;
      cbn [bind] in H; try discriminate. injection H as <- <-.
    destruct (HI (pe_proto e)) as (O1 & _). pose proof (range_prefix_wt _ W4) as Wp.
    destruct (add_addrs_ok _ _ _ _ _ _ _ _ _ O1 P1 P2 P3 (prefix4_addrs_nodup _) (prefix4_addrs_u32 _ Wp Hva) E) as [I1 I2].
    destruct x as [|x]; [|specialize (I1 ltac:(discriminate)); congruence].
    destruct (I2 eq_refl) as (_ & _ & _ & _ & J5 & _). specialize (Hv eq_refl). cbn [not_vacuous] in Hv.
    assert (Hle : lo <= hi). { rewrite <- P4 in Hv. assert (lo <= hi <= hi) by (apply P6; split; [lia|exact Hv]). lia. }
    intros pr. destruct (match pe_proto e, pr with TCP, TCP | UDP, UDP | ICMP, ICMP => true | _, _ => false end) eqn:Epr;
      rewrite trees_set by exact Hp; rewrite Epr; [|apply Hs]. apply J5; auto.
  - destruct Hw as (W1 & W4). unfold pool4db_rm in H.
    destruct (prefix4_validate (range_prefix r0)) eqn:Hva; [|injection H as <- <-; exact Hs].
    destruct (get_trees p pr) as [t|] eqn:Hg; [|injection H as <- <-; exact Hs]. apply get_trees_of in Hg. destruct Hg as [-> Hp].
    set (lo := Z.min (r_min r0) (r_max r0)) in *. set (hi := Z.max (r_min r0) (r_max r0)) in *.
    assert (B : 0 <= lo /\ lo <= hi /\ hi <= 65535) by (destruct W4 as (_ & _ & A1 & A2); unfold is_u16 in *; lia).
    destruct B as (B1 & B2 & B3).
    destruct (rm_from_mark_tree (trees_of p pr) mark (range_prefix r0) lo hi m) as [[[y t1] m1]| |] eqn:E1; cbn [bind] in H; try discriminate.
    destruct (HI pr) as ((O1 & O1' & O1'') & O2 & O3).
    destruct (rm_mark_ok _ _ _ _ _ _ _ _ _ O1 B1 B2 B3 E1) as (I0 & I1 & I2).
    destruct y as [|y]; [|injection H as <- <-; specialize (I1 ltac:(discriminate)); congruence].
    destruct (I2 eq_refl) as (_ & _ & _ & J4 & _).
    unfold rm_from_addr_tree in H.
    match type of H with (let! _ := (let! _ := ?q in _) in _) = _ => destruct q as [[[z tr] m2]| |] end; cbn [bind] in H; try discriminate.
    injection H as <- <-. intros pr'.
    destruct (match pr, pr' with TCP, TCP | UDP, UDP | ICMP, ICMP => true | _, _ => false end) eqn:Epr;
      rewrite trees_set by exact Hp; rewrite Epr; [|apply Hs]. cbn [tmark]. apply J4, Hs.
  - injection H as <- <-. intros pr. replace (trees_of (pool4db_flush p) pr) with no_trees by (destruct pr; reflexivity). intros k tb [].
  - injection H as H. unfold pool4db_update in H.
    destruct (max_iterations_validate flags iters); [|injection H as <- <-; exact Hs].
    destruct (get_trees p pr) as [t|] eqn:Hg; [|injection H as <- <-; exact Hs]. apply get_trees_of in Hg. destruct Hg as [-> Hp].
    destruct (tree_find mark (tmark (trees_of p pr))) as [tb|] eqn:Hf; [|injection H as <- <-; exact Hs].
    destruct (Z.land flags ITERATIONS_SET =? 0); injection H as <- <-; [exact Hs|]. intros pr'.
    destruct (match pr, pr' with TCP, TCP | UDP, UDP | ICMP, ICMP => true | _, _ => false end) eqn:Epr;
      rewrite trees_set by exact Hp; rewrite Epr; [|apply Hs]. cbn [tmark]. intros k tb2 Hi. apply in_replace in Hi.
    destruct Hi as [E|Hi]; [|eapply Hs; exact Hi]. injection E as -> ->. cbn [t_ranges]. eapply Hs. apply find_in. exact Hf.
Qed.

Lemma solid_empty : forall log p, PInv log p -> psolid p -> (forall pr m a q, ~ held log pr m a q) -> pool_is_empty p = true.
Proof.
  intros log p HI Hs Hn. apply empty_iff. intros pr. destruct (tmark (trees_of p pr)) as [|[k tb] tr] eqn:E; [reflexivity|]. exfalso.
  destruct (HI pr) as (((Hnd & Hok) & _) & H2 & _).
  assert (Hi : In (k, tb) (tmark (trees_of p pr))) by (rewrite E; left; reflexivity).
  destruct (Hok _ _ Hi) as (T1 & _). specialize (Hs pr k tb Hi).
  destruct (t_ranges tb) as [|r l] eqn:El; [congruence|]. specialize (Hs r (or_introl eq_refl)).
  apply (Hn pr k (r_addr r) (r_min r)). apply H2. exists tb. split; [apply find_some; auto|]. rewrite El. exists r.
  split; [left; reflexivity|]. split; [reflexivity|lia].
Qed.

(** ** Exactness of the size *)
Definition pexact (p : pool4) : Prop := forall pr k, exact (tmark (trees_of p pr)) k.

Lemma step_exact : forall log p o r p', PInv log p -> wt_op o -> step p o = Ok (r, p') -> r <> Err ENOMEM ->
  (r = OK -> benign log o) -> psolid p -> pexact p -> pexact p'.
Proof.
  intros log p o r p' HI Hw H Hr Hb Hs Hx. destruct o; cbn [step] in H.
  - destruct Hw as (W1 & W2 & W3 & W4). unfold pool4db_add in H.
    destruct (prefix4_validate (range_prefix (pe_range e))) eqn:Hva; [|injection H as <- <-; exact Hx].
    destruct (max_iterations_validate (pe_flags e) (pe_iter e)) eqn:Hm; [|injection H as <- <-; exact Hx].
    destruct (ephemeral_clash e eph force); [injection H as <- <-; exact Hx|].
    destruct (get_trees p (pe_proto e)) as [t|] eqn:Hg; [|injection H as <- <-; exact Hx].
    apply get_trees_of in Hg. destruct Hg as [-> Hp].
    destruct (add_ports e) as [lo hi] eqn:Hports. destruct (add_ports_ok _ _ _ W4 Hports) as (P1 & P2 & P3 & P4 & P5 & P6).
    destruct (add_addrs (trees_of p (pe_proto e)) e lo hi (prefix4_addrs (range_prefix (pe_range e))) m) as [[[x t'] m']| |] eqn:E;
      cbn [bind] in H; try discriminate. injection H as <- <-.
    destruct (HI (pe_proto e)) as (O1 & O2 & _). pose proof (range_prefix_wt _ W4) as Wp.
    destruct (add_addrs_ok _ _ _ _ _ _ _ _ _ O1 P1 P2 P3 (prefix4_addrs_nodup _) (prefix4_addrs_u32 _ Wp Hva) E) as [I1 I2].
    destruct x as [|x]; [|specialize (I1 ltac:(discriminate)); congruence].
    destruct (I2 eq_refl) as (_ & _ & _ & J4 & _ & J6). destruct (Hb eq_refl) as [Hv Hb'].
    assert (Hle : lo <= hi). { cbn [not_vacuous] in Hv. rewrite <- P4 in Hv. assert (lo <= hi <= hi) by (apply P6; split; [lia|exact Hv]). lia. }
    intros pr k. destruct (match pe_proto e, pr with TCP, TCP | UDP, UDP | ICMP, ICMP => true | _, _ => false end) eqn:Epr;
      rewrite trees_set by exact Hp; rewrite Epr; [|apply Hx].
    destruct (Z.eq_dec k (pe_mark e)) as [->|Hne].
    + apply J6; auto. intros a Ha. apply prefix4_addrs_in in Ha; auto.
      destruct (Hb' a Ha) as [Hc|Hi]; [left|right]; intros q Hq.
      * rewrite O2. apply Hc. lia.
      * rewrite O2. assert (Hq' : lo <= q <= hi) by exact Hq. apply P6 in Hq'. destruct Hq' as [_ Hq']. apply Hi; [lia|exact Hq'].
    + intros tb Hf. rewrite J4 in Hf by exact Hne. eapply Hx. exact Hf.
  - destruct Hw as (W1 & W4). unfold pool4db_rm in H.
    destruct (prefix4_validate (range_prefix r0)) eqn:Hva; [|injection H as <- <-; exact Hx].
    destruct (get_trees p pr) as [t|] eqn:Hg; [|injection H as <- <-; exact Hx]. apply get_trees_of in Hg. destruct Hg as [-> Hp].
    set (lo := Z.min (r_min r0) (r_max r0)) in *. set (hi := Z.max (r_min r0) (r_max r0)) in *.
    assert (B : 0 <= lo /\ lo <= hi /\ hi <= 65535) by (destruct W4 as (_ & _ & A1 & A2); unfold is_u16 in *; lia).
    destruct B as (B1 & B2 & B3).
    destruct (rm_from_mark_tree (trees_of p pr) mark (range_prefix r0) lo hi m) as [[[y t1] m1]| |] eqn:E1; cbn [bind] in H; try discriminate.
    destruct (HI pr) as ((O1 & O1' & O1'') & O2 & O3).
    destruct (rm_mark_ok _ _ _ _ _ _ _ _ _ O1 B1 B2 B3 E1) as (I0 & I1 & I2).
    destruct y as [|y]; [|injection H as <- <-; specialize (I1 ltac:(discriminate)); congruence].
    destruct (I2 eq_refl) as (_ & _ & J3 & _ & J5).
    unfold rm_from_addr_tree in H.
    match type of H with (let! _ := (let! _ := ?q in _) in _) = _ => destruct q as [[[z tr] m2]| |] eqn:E2 end; cbn [bind] in H; try discriminate.
    injection H as <- <-. intros pr' k.
    destruct (match pr, pr' with TCP, TCP | UDP, UDP | ICMP, ICMP => true | _, _ => false end) eqn:Epr;
      rewrite trees_set by exact Hp; rewrite Epr; [|apply Hx]. cbn [tmark].
    destruct (Z.eq_dec k mark) as [->|Hne].
    + assert (z = OK).
      { rewrite I0 in E2. destruct (rm_tables_ok _ _ _ _ _ _ _ _ _ O1' O1'' B1 B2 B3 E2) as [K1 _]. destruct z; [reflexivity|].
        specialize (K1 ltac:(discriminate)). congruence. }
      subst z. specialize (Hb eq_refl). cbn [benign] in Hb. fold lo hi in Hb.
      pose proof (range_prefix_wt _ W4) as Wp. pose proof (proj1 (prefix4_validate_spec _ Wp) Hva) as [Hlen _].
      assert (Hl0 : 0 <= p4_len (range_prefix r0)) by (destruct Wp as [_ Hl]; unfold is_u8 in Hl; lia).
      apply J5; [apply Hx|]. intros tb Hf e He Hc [Hlt Hgt].
      destruct (proj2 O1 _ _ (find_in _ _ _ Hf)) as (_ & T2 & _). rewrite Forall_forall in T2. pose proof (T2 e He) as We.
      assert (Hin : in_prefix 32 (r_addr r0) (r_len r0) (r_addr e)).
      { apply (prefix4_contains_spec (range_prefix r0)) in Hc; auto; [apply Wp|apply We]. }
      apply (Hb (r_addr e) Hin). unfold wfr in We.
      split; apply O2; exists tb; (split; [exact Hf|]); exists e; (split; [exact He|]); (split; [reflexivity|lia]).
    + intros tb Hf. rewrite J3 in Hf by exact Hne. eapply Hx. exact Hf.
  - injection H as <- <-. intros pr k. replace (trees_of (pool4db_flush p) pr) with no_trees by (destruct pr; reflexivity). intros tb Hf. discriminate.
  - injection H as H. unfold pool4db_update in H.
    destruct (max_iterations_validate flags iters); [|injection H as <- <-; exact Hx].
    destruct (get_trees p pr) as [t|] eqn:Hg; [|injection H as <- <-; exact Hx]. apply get_trees_of in Hg. destruct Hg as [-> Hp].
    destruct (tree_find mark (tmark (trees_of p pr))) as [tb|] eqn:Hf; [|injection H as <- <-; exact Hx].
    destruct (Z.land flags ITERATIONS_SET =? 0); injection H as <- <-; [exact Hx|]. intros pr' k.
    destruct (match pr, pr' with TCP, TCP | UDP, UDP | ICMP, ICMP => true | _, _ => false end) eqn:Epr;
      rewrite trees_set by exact Hp; rewrite Epr; [|apply Hx]. cbn [tmark]. intros tb2 Hf2.
    rewrite find_replace in Hf2 by (apply in_map_iff; exists (mark, tb); split; [reflexivity|apply find_in; exact Hf]).
    destruct (mark =? k) eqn:Ek; [|eapply Hx; exact Hf2]. injection Hf2 as <-. cbn [t_count t_ranges]. eapply Hx. exact Hf.
Qed.

Lemma run_solid : forall ops p log log' p', PInv log p -> Forall wt_op ops -> run p log ops = Ok (log', p') ->
  no_enomem log' -> (forall o, In (o, OK) log' -> not_vacuous o) -> psolid p -> psolid p'.
Proof.
  induction ops as [|o ops IH]; intros p log log' p' HI Hw H Hn Hv Hs; cbn [run] in H.
  - injection H as <- <-. exact Hs.
  - destruct (step p o) as [[r p1]| |] eqn:E; cbn [bind] in H; try discriminate.
    destruct (run_app _ _ _ _ _ H) as (l & El).
    assert (Hr : r <> Err ENOMEM). { intros ->. apply (Hn o). rewrite El. apply in_or_app. right. left. reflexivity. }
    apply (IH p1 ((o, r) :: log) log'); auto; [|apply (Forall_inv_tail Hw)|].
    + eapply step_ok; eauto. apply (Forall_inv Hw).
    + eapply step_solid; eauto; [apply (Forall_inv Hw)|]. intros ->. apply Hv. rewrite El. apply in_or_app. right. left. reflexivity.
Qed.

Lemma all_benign_app : forall l log, all_benign (l ++ log) -> all_benign log.
Proof. induction l as [|[o r] l IH]; intros log H; [exact H|]. apply IH. apply H. Qed.
Lemma all_benign_vac : forall log, all_benign log -> forall o, In (o, OK) log -> not_vacuous o.
Proof.
  induction log as [|[o' r] log IH]; intros H o Hi; [destruct Hi|]. destruct H as [H1 H2]. destruct Hi as [E|Hi]; [|apply IH; auto].
  injection E as -> ->. specialize (H1 eq_refl). destruct o; cbn [benign not_vacuous] in *; auto. apply H1.
Qed.

Lemma run_exact : forall ops p log log' p', PInv log p -> Forall wt_op ops -> run p log ops = Ok (log', p') ->
  no_enomem log' -> all_benign log' -> psolid p -> pexact p -> pexact p'.
Proof.
  induction ops as [|o ops IH]; intros p log log' p' HI Hw H Hn Hv Hs Hx; cbn [run] in H.
  - injection H as <- <-. exact Hx.
  - destruct (step p o) as [[r p1]| |] eqn:E; cbn [bind] in H; try discriminate.
    destruct (run_app _ _ _ _ _ H) as (l & El).
    assert (Hr : r <> Err ENOMEM). { intros ->. apply (Hn o). rewrite El. apply in_or_app. right. left. reflexivity. }
    assert (Hb : r = OK -> benign log o). { rewrite El in Hv. apply all_benign_app in Hv. apply Hv. }
    assert (Hvv : r = OK -> not_vacuous o). { intros ->. apply (all_benign_vac log'); auto. rewrite El. apply in_or_app. right. left. reflexivity. }
    apply (IH p1 ((o, r) :: log) log'); auto; [|apply (Forall_inv_tail Hw)| |].
    + eapply step_ok; eauto. apply (Forall_inv Hw).
    + eapply step_solid; eauto. apply (Forall_inv Hw).
    + eapply step_exact; eauto. apply (Forall_inv Hw).
Qed.

(** ** The transport addresses of a list of ranges, in order *)
Definition raddrs (r : range) : list (Z * Z) := map (fun i => (r_addr r, r_min r + Z.of_nat i)) (seq 0 (Z.to_nat (cnt r))).
Definition addrs (l : list range) : list (Z * Z) := flat_map raddrs l.

Lemma raddrs_in : forall r a q, In (a, q) (raddrs r) <-> rin r a q.
Proof.
  intros r a q. unfold raddrs, rin, cnt. rewrite in_map_iff. split.
  - intros (i & E & Hi). apply in_seq in Hi. injection E as <- <-. split; [reflexivity|lia].
  - intros [<- Hq]. exists (Z.to_nat (q - r_min r)). split; [f_equal; lia|]. apply in_seq. lia.
Qed.
Lemma addrs_in : forall l a q, In (a, q) (addrs l) <-> inr l a q.
Proof.
  intros l a q. unfold addrs, inr. rewrite in_flat_map. split; intros (r & H1 & H2); exists r; (split; [exact H1|]); apply raddrs_in; exact H2.
Qed.
Lemma NoDup_app_intro : forall (A : Type) (l1 l2 : list A), NoDup l1 -> NoDup l2 -> (forall x, In x l1 -> ~ In x l2) -> NoDup (l1 ++ l2).
Proof.
  induction l1 as [|x l1 IH]; intros l2 H1 H2 H; [exact H2|]. cbn. apply NoDup_cons_iff in H1. destruct H1 as [H1 H1'].
  constructor; [|apply IH; auto; intros y Hy; apply H; right; exact Hy].
  intros Hi. apply in_app_or in Hi. destruct Hi as [Hi|Hi]; [auto|]. apply (H x (or_introl eq_refl) Hi).
Qed.
Lemma addrs_nodup : forall l, ordered l -> Forall wfr l -> NoDup (addrs l).
Proof.
  induction l as [|r l IH]; intros Ho Wl; [constructor|]. destruct Ho as [H1 H2]. cbn [addrs flat_map].
  apply NoDup_app_intro.
  - unfold raddrs. apply FinFun.Injective_map_NoDup; [intros i j E; injection E; lia|apply seq_NoDup].
  - apply IH; [exact H2|apply (Forall_inv_tail Wl)].
  - intros [a q] Hi1 Hi2. apply raddrs_in in Hi1. apply (addrs_in l) in Hi2. destruct Hi2 as (x & Hx & Hxa).
    specialize (H1 x Hx). unfold rin, before in *. lia.
Qed.
Lemma raddrs_len : forall r, wfr r -> Z.of_nat (length (raddrs r)) = cnt r.
Proof. intros r W. unfold raddrs. rewrite map_length, seq_length. pose proof (cnt_nonneg r W). lia. Qed.
Lemma addrs_len : forall l, Forall wfr l -> Z.of_nat (length (addrs l)) = total l.
Proof.
  induction 1 as [|r l Wr Wl IH]; [reflexivity|]. cbn [addrs flat_map total]. fold (addrs l). rewrite app_length, Nat2Z.inj_add, raddrs_len, IH by auto. reflexivity.
Qed.
