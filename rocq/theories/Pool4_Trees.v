From Coq Require FinFun.
Require Import Verif.Base Verif.Addr_Model Verif.Addr_Spec Verif.Addr_Proofs Verif.Rtrie_Model.
Require Import Verif.Pool4_Model Verif.Pool4_Spec Verif.Pool4_Proofs.
Local Ltac Zify.zify_post_hook ::= idtac.

(** ** Trees as finite maps *)
Lemma find_nil : forall k, tree_find k [] = None.
Proof. reflexivity. Qed.
Lemma find_cons : forall k k' v t, tree_find k ((k', v) :: t) = if k' =? k then Some v else tree_find k t.
Proof. intros. unfold tree_find. cbn [find fst]. destruct (k' =? k); reflexivity. Qed.

Lemma find_in : forall t k v, tree_find k t = Some v -> In (k, v) t.
Proof.
  induction t as [|[k' v'] t IH]; intros k v H; [discriminate|]. rewrite find_cons in H.
  destruct (k' =? k) eqn:E; [|right; apply IH; exact H]. left. f_equal; [lia|congruence].
Qed.
Lemma find_some : forall t k v, NoDup (map fst t) -> In (k, v) t -> tree_find k t = Some v.
Proof.
  induction t as [|[k' v'] t IH]; intros k v Hn Hi; [destruct Hi|]. destruct Hi as [E|Hi].
  - injection E as -> ->. rewrite find_cons, Z.eqb_refl. reflexivity.
  - cbn [map fst] in Hn. apply NoDup_cons_iff in Hn. destruct Hn as [H1 H2]. rewrite find_cons.
    destruct (k' =? k) eqn:E; [|apply IH; auto]. exfalso. apply H1. apply in_map_iff. exists (k, v). split; [cbn; lia|exact Hi].
Qed.
Lemma find_none : forall t k, tree_find k t = None <-> ~ In k (map fst t).
Proof.
  induction t as [|[k' v'] t IH]; intros k; [cbn; tauto|]. rewrite find_cons. cbn [map fst In].
  destruct (k' =? k) eqn:E; [split; [discriminate|intros H; exfalso; apply H; left; lia]|].
  rewrite IH. split; [intros H [H1|H1]; [lia|auto]|tauto].
Qed.

Lemma keys_replace : forall t k v, map fst (tree_replace k t v) = map fst t.
Proof.
  induction t as [|[k' v'] t IH]; intros; [reflexivity|]. cbn [tree_replace map fst] in *. f_equal; [|apply IH].
  destruct (k' =? k) eqn:E; cbn [fst]; lia.
Qed.
Lemma find_replace : forall t k v k', In k (map fst t) ->
  tree_find k' (tree_replace k t v) = if k =? k' then Some v else tree_find k' t.
Proof.
  induction t as [|[k0 v0] t IH]; intros k v k' Hin; [destruct Hin|].
  change (tree_replace k ((k0, v0) :: t) v) with ((if k0 =? k then (k, v) else (k0, v0)) :: tree_replace k t v).
  destruct (k0 =? k) eqn:E.
  - rewrite !find_cons. destruct (k =? k') eqn:E2; [reflexivity|]. replace (k0 =? k') with false by lia.
    destruct (in_dec Z.eq_dec k (map fst t)) as [Hi|Hi]; [rewrite IH by exact Hi; rewrite E2; reflexivity|].
    replace (tree_replace k t v) with t; [reflexivity|].
    clear -Hi. induction t as [|[k1 v1] t IH]; [reflexivity|]. cbn [map fst In] in Hi.
    change (tree_replace k ((k1, v1) :: t) v) with ((if k1 =? k then (k, v) else (k1, v1)) :: tree_replace k t v).
    destruct (k1 =? k) eqn:E; [exfalso; apply Hi; left; lia|]. f_equal. apply IH. tauto.
  - cbn [map fst In] in Hin. rewrite !find_cons, IH by (destruct Hin; [lia|auto]).
    destruct (k =? k') eqn:E2; [replace (k0 =? k') with false by lia; reflexivity|reflexivity].
Qed.
Lemma in_replace : forall t k v x, In x (tree_replace k t v) -> x = (k, v) \/ In x t.
Proof.
  intros t k v x H. unfold tree_replace in H. apply in_map_iff in H. destruct H as (y & <- & Hy).
  destruct (fst y =? k); auto.
Qed.

Lemma in_insert : forall b t k v x, In x (tree_insert b k v t) <-> x = (k, v) \/ In x t.
Proof.
  induction t as [|y t IH]; intros k v x; cbn [tree_insert In]; [intuition congruence|].
  destruct (b k (fst y)); cbn [In]; [intuition congruence|]. rewrite IH. tauto.
Qed.
Lemma nodup_insert : forall b t k v, NoDup (map fst t) -> ~ In k (map fst t) -> NoDup (map fst (tree_insert b k v t)).
Proof.
  induction t as [|y t IH]; intros k v Hn Hk; cbn [tree_insert map fst]; [constructor; [tauto|constructor]|].
  destruct (b k (fst y)); [constructor; assumption|]. cbn [map fst] in *. apply NoDup_cons_iff in Hn. destruct Hn as [H1 H2].
  constructor; [|apply IH; [exact H2|intros H; apply Hk; right; exact H]].
  intros Hi. apply in_map_iff in Hi. destruct Hi as (z & Ez & Hz). apply in_insert in Hz. destruct Hz as [->|Hz].
  - apply Hk. left. cbn in Ez. congruence.
  - apply H1. apply in_map_iff. eauto.
Qed.
Lemma find_insert : forall b t k v k', NoDup (map fst t) -> ~ In k (map fst t) ->
  tree_find k' (tree_insert b k v t) = if k =? k' then Some v else tree_find k' t.
Proof.
  intros b t k v k' Hn Hk. destruct (k =? k') eqn:E.
  - apply find_some; [apply nodup_insert; auto|]. apply in_insert. left. f_equal. lia.
  - destruct (tree_find k' t) as [w|] eqn:F.
    + apply find_some; [apply nodup_insert; auto|]. apply in_insert. right. apply find_in. exact F.
    + apply find_none. intros Hi. apply in_map_iff in Hi. destruct Hi as (z & Ez & Hz). apply in_insert in Hz.
      destruct Hz as [->|Hz]; [cbn in Ez; lia|]. apply (proj1 (find_none t k') F). apply in_map_iff. eauto.
Qed.

Lemma in_erase : forall t k x, In x (tree_erase k t) -> In x t.
Proof. intros t k x H. apply filter_In in H. apply H. Qed.
Lemma nodup_erase : forall t k, NoDup (map fst t) -> NoDup (map fst (tree_erase k t)).
Proof.
  induction t as [|y t IH]; intros k Hn; [constructor|]. cbn [map] in Hn. apply NoDup_cons_iff in Hn. destruct Hn as [H1 H2].
  cbn [tree_erase filter]. destruct (fst y =? k); cbn [negb map]; [apply IH; exact H2|].
  constructor; [|apply IH; exact H2]. intros Hi. apply H1. apply in_map_iff in Hi. destruct Hi as (z & Ez & Hz).
  apply in_map_iff. exists z. split; [exact Ez|eapply in_erase; exact Hz].
Qed.
Lemma find_erase : forall t k k', tree_find k' (tree_erase k t) = if k =? k' then None else tree_find k' t.
Proof.
  induction t as [|[k0 v0] t IH]; intros k k'; [destruct (k =? k'); reflexivity|].
  cbn [tree_erase filter fst]. fold (tree_erase k t). destruct (k0 =? k) eqn:E; cbn [negb].
  - rewrite IH, find_cons. destruct (k =? k') eqn:E2; [reflexivity|]. replace (k0 =? k') with false by lia. reflexivity.
  - rewrite !find_cons, IH. destruct (k =? k') eqn:E2; [replace (k0 =? k') with false by lia; reflexivity|reflexivity].
Qed.

(** ** Well-formed trees and their contents *)
Definition tab_ok (tb : table) : Prop :=
  t_ranges tb <> [] /\ Forall wfr (t_ranges tb) /\ ordered (t_ranges tb) /\ is_u32 (t_count tb).
Definition tree_ok (tr : tree) : Prop := NoDup (map fst tr) /\ forall k tb, In (k, tb) tr -> tab_ok tb.
Definition keyed (tr : tree) : Prop := forall k tb r, In (k, tb) tr -> In r (t_ranges tb) -> r_addr r = k.
Definition tin (tr : tree) (k a p : Z) : Prop := exists tb, tree_find k tr = Some tb /\ inr (t_ranges tb) a p.
Definition exact (tr : tree) (k : Z) : Prop := forall tb, tree_find k tr = Some tb -> u32 (t_count tb) = u32 (total (t_ranges tb)).

Lemma set_iters_ranges : forall e tb, t_ranges (set_iters e tb) = t_ranges tb.
Proof. intros. unfold set_iters. destruct (Z.land _ _ =? 0); reflexivity. Qed.
Lemma set_iters_count : forall e tb, t_count (set_iters e tb) = t_count tb.
Proof. intros. unfold set_iters. destruct (Z.land _ _ =? 0); reflexivity. Qed.

(** Replace the table of [k] by one holding also [n] (or create it). *)
Definition grown (tr tr' : tree) (k : Z) (n : range) : Prop :=
  tree_ok tr' /\ (forall k' a p, tin tr' k' a p <-> (k' = k /\ rin n a p) \/ tin tr k' a p) /\
  (keyed tr -> r_addr n = k -> keyed tr') /\
  (forall k', k' <> k -> tree_find k' tr' = tree_find k' tr) /\
  (exact tr k ->
   match tree_find k tr with
   | None => True
   | Some tb => clear (t_ranges tb) n \/ (inside (t_ranges tb) n /\ r_min n <= r_max n)
   end -> exact tr' k).

Lemma grow_existing : forall tr k tb n m r tb' pl m' it,
  tree_ok tr -> wfr n -> tree_find k tr = Some tb -> pool4_add_range tb n m = (r, tb', pl, m') ->
  (it = tb' \/ t_ranges it = t_ranges tb' /\ t_count it = t_count tb') ->
  (r = OK -> grown tr (tree_replace k tr it) k n) /\ (r <> OK -> r = Err ENOMEM).
Proof.
  intros tr k tb n m r tb' pl m' it Hok Wn Hf Ha Hit. unfold pool4_add_range in Ha.
  destruct (if needs_slot (t_ranges tb) n then draw m else (KStay, m)) as [kk m1] eqn:Ek.
  destruct (add_range_loop (t_count tb) (t_ranges tb) n kk) as [[[r0 c] l] p0] eqn:El.
  injection Ha as <- <- <- <-. destruct Hok as [Hn Hok]. pose proof (Hok _ _ (find_in _ _ _ Hf)) as (T1 & T2 & T3 & T4).
  destruct (add_loop_ok _ _ _ _ _ _ _ _ Wn T2 T3 El) as [L1 L2].
  assert (Hit' : t_ranges it = l /\ t_count it = c) by (destruct Hit as [->|[-> ->]]; split; reflexivity). destruct Hit' as [Rit Cit].
  assert (Hk : In k (map fst tr)) by (apply in_map_iff; exists (k, tb); split; [reflexivity|apply find_in; exact Hf]).
  destruct L1 as [(_ & -> & _)|(-> & J0 & J1 & J2 & J3 & J4 & J5)].
  { split; [discriminate|auto]. }
  split; [intros _|congruence]. unfold grown. split; [|split; [|split; [|split]]].
  - split; [rewrite keys_replace; exact Hn|]. intros k' tb2 Hi. apply in_replace in Hi. destruct Hi as [E|Hi]; [|eapply Hok; exact Hi].
    injection E as -> ->. unfold tab_ok. rewrite Rit, Cit. auto.
  - intros k' a p. unfold tin. rewrite find_replace by exact Hk. destruct (k =? k') eqn:E.
    + assert (k' = k) by lia. subst k'. rewrite Hf. split.
      * intros (tb2 & [= <-] & Hi). rewrite Rit, J3 in Hi. destruct Hi as [Hi|Hi]; [left; auto|right; eauto].
      * intros [[_ Hi]|(tb2 & [= <-] & Hi)]; (exists it; split; [reflexivity|]; rewrite Rit, J3; auto).
    + split; [auto|]. intros [[-> _]|H]; [lia|exact H].
  - intros Hkey Hr k' tb2 r Hi Hir. apply in_replace in Hi. destruct Hi as [E|Hi]; [|eapply Hkey; eauto].
    injection E as -> ->. rewrite Rit in Hir.
    apply (add_addr _ _ _ _ _ _ _ _ _ El) in Hir. cbn [map In] in Hir. destruct Hir as [Hir|Hir]; [congruence|].
    apply in_map_iff in Hir. destruct Hir as (z & <- & Hz). eapply Hkey; [apply find_in; exact Hf|exact Hz].
  - intros k' Hne. rewrite find_replace by exact Hk. replace (k =? k') with false by lia. reflexivity.
  - intros Hex Hc tb2 Hf2. rewrite find_replace, Z.eqb_refl in Hf2 by exact Hk. injection Hf2 as <-. rewrite Rit, Cit.
    rewrite Hf in Hc. rewrite J5 by exact Hc. specialize (Hex tb Hf).
    replace (t_count tb + total l - total (t_ranges tb)) with (t_count tb + (total l - total (t_ranges tb))) by lia.
    rewrite <- u32_idem, Hex, u32_idem. f_equal. lia.
Qed.

Lemma single_ok : forall n, wfr n -> tab_ok (create_table n).
Proof.
  intros n Wn. unfold tab_ok, create_table. cbn [t_ranges t_count].
  split; [discriminate|]. split; [constructor; [exact Wn|constructor]|]. split; [split; [intros r' []|exact I]|].
  rewrite range_count_cnt by auto. unfold cnt, wfr, is_u32 in *. lia.
Qed.

Lemma grow_new : forall tr k n b it, tree_ok tr -> wfr n -> tree_find k tr = None ->
  t_ranges it = [n] -> t_count it = range_count n -> grown tr (tree_insert b k it tr) k n.
Proof.
  intros tr k n b it [Hn Hok] Wn Hf Rit Cit. pose proof (proj1 (find_none _ _) Hf) as Hk.
  unfold grown. split; [|split; [|split; [|split]]].
  - split; [apply nodup_insert; auto|]. intros k' tb Hi. apply in_insert in Hi. destruct Hi as [E|Hi]; [|eapply Hok; exact Hi].
    injection E as -> ->. pose proof (single_ok n Wn) as Hs. unfold tab_ok, create_table in *. cbn [t_ranges t_count] in Hs.
    rewrite Rit, Cit. exact Hs.
  - intros k' a p. unfold tin. rewrite find_insert by auto. destruct (k =? k') eqn:E.
    + assert (k' = k) by lia. subst k'. rewrite Hf. split.
      * intros (tb & [= <-] & Hi). rewrite Rit, inr_cons, inr_nil in Hi. tauto.
      * intros [[_ Hi]|(tb & ? & _)]; [|discriminate]. exists it. split; [reflexivity|]. rewrite Rit, inr_cons. auto.
    + split; [auto|]. intros [[-> _]|H]; [lia|exact H].
  - intros Hkey Hr k' tb r Hi Hir. apply in_insert in Hi. destruct Hi as [E|Hi]; [|eapply Hkey; eauto].
    injection E as -> ->. rewrite Rit in Hir. destruct Hir as [<-|[]]. exact Hr.
  - intros k' Hne. rewrite find_insert by auto. replace (k =? k') with false by lia. reflexivity.
  - intros _ _ tb Hf2. rewrite find_insert, Z.eqb_refl in Hf2 by auto. injection Hf2 as <-. rewrite Rit, Cit.
    rewrite range_count_cnt by auto. cbn [total]. f_equal. lia.
Qed.

(** ** Sets and lists *)
Definition solid (l : list range) : Prop := forall r, In r l -> r_min r <= r_max r.

Lemma ordered_cases : forall l x y, ordered l -> In x l -> In y l -> x = y \/ before x y \/ before y x.
Proof.
  induction l as [|r l IH]; intros x y Ho Hx Hy; [destruct Hx|]. destruct Ho as [H1 H2].
  destruct Hx as [<-|Hx], Hy as [<-|Hy]; auto.
Qed.

Lemma set_inside : forall l n, ordered l -> r_min n <= r_max n ->
  (forall p, r_min n <= p <= r_max n -> inr l (r_addr n) p) -> inside l n.
Proof.
  intros l n Ho Hn H. destruct (H (r_min n)) as (x & Hx & Hxa & Hxm); [lia|]. exists x. repeat split; auto; [lia|].
  destruct (Z_le_gt_dec (r_max n) (r_max x)) as [|Hgt]; [assumption|]. exfalso.
  destruct (H (r_max x + 1)) as (y & Hy & Hya & Hym); [lia|].
  destruct (ordered_cases l x y Ho Hx Hy) as [<-|[B|B]]; [lia| |]; unfold before in B; lia.
Qed.

Lemma set_clear : forall l n, solid l -> r_min n <= r_max n ->
  (forall p, r_min n - 1 <= p <= r_max n + 1 -> ~ inr l (r_addr n) p) -> clear l n.
Proof.
  intros l n Hs Hn H x Hx C. apply cmp_eq in C. destruct C as (Ca & C1 & C2). specialize (Hs x Hx).
  apply (H (Z.max (r_min x) (r_min n - 1))); [lia|]. exists x. split; [exact Hx|]. split; [exact Ca|lia].
Qed.

Lemma fix_solid : forall rest c e c' l, fix_collisions c e rest = (c', l) -> r_min e <= r_max e -> solid rest -> solid l.
Proof.
  induction rest as [|x rest IH]; intros c e c' l H He Hs; cbn [fix_collisions] in H.
  - injection H as <- <-. intros r [<-|[]]. exact He.
  - assert (Hx : r_min x <= r_max x) by (apply Hs; left; reflexivity).
    destruct (ipv4_range_touches e x).
    + apply (IH _ _ _ _ H); [|intros r Hr; apply Hs; right; exact Hr].
      unfold ipv4_range_fuse. cbn [r_min r_max]. destruct (r_min e <? r_min x) eqn:E1, (r_max x <? r_max e) eqn:E2; lia.
    + injection H as <- <-. intros r [<-|Hr]; [exact He|apply Hs; exact Hr].
Qed.
Lemma add_solid : forall l c n k r c' l' pl, add_range_loop c l n k = (r, c', l', pl) -> r_min n <= r_max n -> solid l -> solid l'.
Proof.
  induction l as [|e l IH]; intros c n k r c' l' pl H Hn Hs; cbn [add_range_loop] in H.
  - destruct k; injection H as <- <- <- <-; auto; intros x [<-|[]]; exact Hn.
  - assert (He : r_min e <= r_max e) by (apply Hs; left; reflexivity).
    assert (Hs' : solid l) by (intros x Hx; apply Hs; right; exact Hx).
    destruct (compare_range e n).
    + destruct (fix_collisions c (ipv4_range_fuse e n) l) as [c2 l2] eqn:F. injection H as <- <- <- <-.
      apply (fix_solid _ _ _ _ _ F); auto. unfold ipv4_range_fuse. cbn [r_min r_max].
      destruct (r_min e <? r_min n) eqn:E1, (r_max n <? r_max e) eqn:E2; lia.
    + destruct (add_range_loop c l n k) as [[[r2 c2] l2] p2] eqn:A. injection H as <- <- <- <-.
      specialize (IH _ _ _ _ _ _ _ A Hn Hs'). intros x [<-|Hx]; [exact He|apply IH; exact Hx].
    + destruct k; injection H as <- <- <- <-; auto; intros x [<-|Hx]; auto.
Qed.
Lemma rm_solid : forall l c p lo hi m r c' l' m', rm_loop c l p lo hi m = Ok (r, c', l', m') -> solid l -> solid l'.
Proof.
  induction l as [|e l IH]; intros c p lo hi m r c' l' m' H Hs; cbn [rm_loop] in H.
  { injection H as <- <- <- <-. exact Hs. }
  assert (He : r_min e <= r_max e) by (apply Hs; left; reflexivity).
  assert (Hs' : solid l) by (intros x Hx; apply Hs; right; exact Hx).
  assert (Keep : forall c1 m e', r_min e' <= r_max e' ->
     (let! x := rm_loop c1 l p lo hi m in let '(x, c, l'', m) := x in Ok (x, c, e' :: l'', m)) = Ok (r, c', l', m') -> solid l').
  { intros c1 m0 e' He' HH. destruct (rm_loop c1 l p lo hi m0) as [[[[x1 c2] l2] m2]| |] eqn:E; cbn [bind] in HH; try discriminate.
    injection HH as <- <- <- <-. specialize (IH _ _ _ _ _ _ _ _ _ E Hs'). intros x [<-|Hx]; [exact He'|apply IH; exact Hx]. }
  destruct (negb _); [eapply Keep; [|exact H]; exact He|].
  destruct ((lo <=? r_min e) && (r_max e <=? hi)) eqn:E1; [eapply IH; [exact H|exact Hs']|].
  destruct ((r_min e <? lo) && (hi <? r_max e)) eqn:E2.
  { destruct (draw m) as [k m1]. destruct k; [injection H as <- <- <- <-| |discriminate].
    - intros x [<-|Hx]; [cbn [r_min r_max]; lia|apply Hs'; exact Hx].
    - match type of H with (let! _ := rm_loop ?c1 _ _ _ _ _ in _) = _ => destruct (rm_loop c1 l p lo hi m1) as [[[[x1 c2] l2] m2]| |] eqn:E end;
      cbn [bind] in H; try discriminate. injection H as <- <- <- <-.
      specialize (IH _ _ _ _ _ _ _ _ _ E Hs'). intros x [<-|[<-|Hx]]; [cbn [r_min r_max]; lia|cbn [r_min r_max]; lia|apply IH; exact Hx]. }
  destruct (_ || _) eqn:E3; [eapply Keep; [|exact H]; exact He|].
  destruct (r_min e <? lo) eqn:E4; [eapply Keep; [|exact H]; cbn [r_min r_max]; lia|].
  destruct (hi <? r_max e) eqn:E5; (eapply Keep; [|exact H]; cbn [r_min r_max]; lia).
Qed.

Definition tsolid (tr : tree) : Prop := forall k tb, In (k, tb) tr -> solid (t_ranges tb).

(** ** Additions *)
Lemma add_mark_ok : forall t e n m r t' m', tree_ok (tmark t) -> wfr n ->
  add_to_mark_tree t e n m = Ok (r, t', m') ->
  taddr t' = taddr t /\ (r <> OK -> r = Err ENOMEM) /\
  (r = OK -> grown (tmark t) (tmark t') (pe_mark e) n) /\
  (r = OK -> r_min n <= r_max n -> tsolid (tmark t) -> tsolid (tmark t')).
Proof.
  intros t e n m r t' m' Hok Wn H. unfold add_to_mark_tree in H.
  destruct (tree_find (pe_mark e) (tmark t)) as [tb|] eqn:Hf.
  - destruct (pool4_add_range tb n m) as [[[r0 tb'] pl] m0] eqn:Ha.
    assert (Sol : r_min n <= r_max n -> solid (t_ranges tb) -> solid (t_ranges tb')).
    { intros Hn Hs. unfold pool4_add_range in Ha. destruct (if needs_slot _ _ then _ else _) as [kk mm].
      destruct (add_range_loop _ _ _ _) as [[[r1 c1] l1] p1] eqn:El. injection Ha as <- <- <- <-. cbn [t_ranges].
      eapply add_solid; eauto. }
    assert (SolT : forall it, t_ranges it = t_ranges tb' -> r_min n <= r_max n -> tsolid (tmark t) -> tsolid (tree_replace (pe_mark e) (tmark t) it)).
    { intros it Eit Hn Hs k tb2 Hi. apply in_replace in Hi. destruct Hi as [E|Hi]; [|eapply Hs; exact Hi]. injection E as -> ->.
      rewrite Eit. apply Sol; auto. eapply Hs. apply find_in. exact Hf. }
    destruct r0 as [|x].
    + destruct (Z.land (pe_flags e) ITERATIONS_SET =? 0).
      * injection H as <- <- <-. cbn [tmark taddr]. split; [reflexivity|]. split; [congruence|]. split.
        -- intros _. eapply (grow_existing _ _ _ _ _ _ _ _ _ tb' Hok Wn Hf Ha); auto.
        -- intros _. apply SolT. reflexivity.
      * destruct pl; [|discriminate]. injection H as <- <- <-. cbn [tmark taddr]. split; [reflexivity|]. split; [congruence|]. split.
        -- intros _. eapply (grow_existing _ _ _ _ _ _ _ _ _ (set_iters e tb') Hok Wn Hf Ha); auto.
           right. split; [apply set_iters_ranges|apply set_iters_count].
        -- intros _. apply SolT. apply set_iters_ranges.
    + injection H as <- <- <-. cbn [taddr tmark]. split; [reflexivity|]. split; [|split; discriminate].
      intros Hne. apply (grow_existing _ _ _ _ _ _ _ _ _ tb' Hok Wn Hf Ha); auto.
  - destruct (draw m) as [k m0]. destruct k; injection H as <- <- <-; cbn [tmark taddr]; (split; [reflexivity|]);
    (split; [congruence|]); (split; [try discriminate|try discriminate]).
    + intros _. apply grow_new; auto; [rewrite set_iters_ranges|rewrite set_iters_count]; reflexivity.
    + intros _ Hn Hs k tb Hi. apply in_insert in Hi. destruct Hi as [E|Hi]; [|eapply Hs; exact Hi]. injection E as -> ->.
      rewrite set_iters_ranges. intros r [<-|[]]. exact Hn.
    + intros _. apply grow_new; auto; [rewrite set_iters_ranges|rewrite set_iters_count]; reflexivity.
    + intros _ Hn Hs k tb Hi. apply in_insert in Hi. destruct Hi as [E|Hi]; [|eapply Hs; exact Hi]. injection E as -> ->.
      rewrite set_iters_ranges. intros r [<-|[]]. exact Hn.
Qed.

Lemma add_addr_ok : forall t n m r t' m', tree_ok (taddr t) -> wfr n ->
  add_to_addr_tree t n m = (r, t', m') ->
  tmark t' = tmark t /\ (r <> OK -> r = Err ENOMEM) /\
  (r = OK -> grown (taddr t) (taddr t') (r_addr n) n).
Proof.
  intros t n m r t' m' Hok Wn H. unfold add_to_addr_tree in H.
  destruct (tree_find (r_addr n) (taddr t)) as [tb|] eqn:Hf.
  - destruct (pool4_add_range tb n m) as [[[r0 tb'] pl] m0] eqn:Ha. injection H as <- <- <-. cbn [tmark taddr].
    split; [reflexivity|]. destruct (grow_existing _ _ _ _ _ _ _ _ _ tb' Hok Wn Hf Ha) as [G1 G2]; auto.
  - destruct (draw m) as [k m0]. destruct k; injection H as <- <- <-; cbn [tmark taddr]; (split; [reflexivity|]);
    (split; [congruence|]); try discriminate; (intros _; apply grow_new; auto).
Qed.

Definition trees_ok (t : trees) : Prop := tree_ok (tmark t) /\ tree_ok (taddr t) /\ keyed (taddr t).

Lemma add_addrs_ok : forall addrs t e lo hi m r t' m',
  trees_ok t -> 0 <= lo -> lo <= hi + 1 -> hi <= 65535 -> NoDup addrs -> Forall is_u32 addrs ->
  add_addrs t e lo hi addrs m = Ok (r, t', m') ->
  (r <> OK -> r = Err ENOMEM) /\
  (r = OK -> trees_ok t' /\
     (forall k a p, tin (tmark t') k a p <-> (k = pe_mark e /\ In a addrs /\ lo <= p <= hi) \/ tin (tmark t) k a p) /\
     (forall k a p, tin (taddr t') k a p <-> (k = a /\ In a addrs /\ lo <= p <= hi) \/ tin (taddr t) k a p) /\
     (forall k, k <> pe_mark e -> tree_find k (tmark t') = tree_find k (tmark t)) /\
     (lo <= hi -> tsolid (tmark t) -> tsolid (tmark t')) /\
     (lo <= hi -> tsolid (tmark t) -> exact (tmark t) (pe_mark e) ->
      (forall a, In a addrs ->
         (forall p, lo - 1 <= p <= hi + 1 -> ~ tin (tmark t) (pe_mark e) a p) \/
         (forall p, lo <= p <= hi -> tin (tmark t) (pe_mark e) a p)) ->
      exact (tmark t') (pe_mark e))).
Proof.
  induction addrs as [|x addrs IH]; intros t e lo hi m r t' m' Hok L0 Lh H0 Hnd Hu H; cbn [add_addrs] in H.
  { injection H as <- <- <-. split; [congruence|]. intros _. split; [exact Hok|].
    split; [intros; cbn [In]; tauto|]. split; [intros; cbn [In]; tauto|]. auto. }
  destruct Hok as (O1 & O2 & O3). apply NoDup_cons_iff in Hnd. destruct Hnd as [Nx Hnd].
  pose proof (Forall_inv Hu) as Ux. pose proof (Forall_inv_tail Hu) as Hu'.
  set (n := Rg x 32 lo hi) in *.
  assert (Wn : wfr n) by (unfold wfr, n; cbn [r_addr r_len r_min r_max]; repeat split; try lia; apply Ux).
  destruct (add_to_mark_tree t e n m) as [[[r1 t1] m1]| |] eqn:A1; cbn [bind] in H; try discriminate.
  destruct (add_mark_ok _ _ _ _ _ _ _ O1 Wn A1) as (E1 & F1 & G1 & S1).
  destruct r1 as [|x1]; [|injection H as <- <- <-; split; [exact F1|discriminate]].
  specialize (G1 eq_refl). specialize (S1 eq_refl). destruct G1 as (M1 & M2 & _ & M3 & M4).
  destruct (add_to_addr_tree t1 n m1) as [[r2 t2] m2] eqn:A2.
  assert (O2' : tree_ok (taddr t1)) by (rewrite E1; exact O2).
  destruct (add_addr_ok _ _ _ _ _ _ O2' Wn A2) as (E2 & F2 & G2).
  destruct r2 as [|x2]; [|injection H as <- <- <-; split; [exact F2|discriminate]].
  specialize (G2 eq_refl). destruct G2 as (N1 & N2 & N3 & _). rewrite E1 in *.
  assert (Hok2 : trees_ok t2).
  { split; [rewrite E2; exact M1|]. split; [exact N1|]. apply N3; auto. }
  destruct (IH _ _ _ _ _ _ _ _ Hok2 L0 Lh H0 Hnd Hu' H) as [I1 I2]. split; [exact I1|]. intros Hr.
  destruct (I2 Hr) as (J1 & J2 & J3 & J4 & J5 & J6). split; [exact J1|]. rewrite E2 in *.
  assert (Rn : forall a p, rin n a p <-> x = a /\ lo <= p <= hi) by (intros; unfold rin, n; cbn [r_addr r_min r_max]; reflexivity).
  split; [|split; [|split; [|split]]].
  - intros k a p. rewrite J2, M2, Rn. cbn [In]. clear. tauto.
  - intros k a p. rewrite J3, N2, Rn. cbn [In]. cbn [r_addr n]. clear. intuition congruence.
  - intros k Hk. rewrite J4, M3 by exact Hk. reflexivity.
  - intros Hl Hs. apply J5; auto.
  - intros Hl Hs Hex Hb. apply J6; auto.
    + apply M4; [exact Hex|]. destruct (tree_find (pe_mark e) (tmark t)) as [tb|] eqn:Hf; [|exact I].
      destruct (proj2 O1 _ _ (find_in _ _ _ Hf)) as (T1 & T2 & T3 & T4).
      destruct (Hb x (or_introl eq_refl)) as [Hc|Hi].
      * left. apply set_clear; [eapply Hs; apply find_in; exact Hf|exact Hl|]. cbn [n r_min r_max r_addr].
        intros p Hp Hin. apply (Hc p Hp). exists tb. auto.
      * right. split; [|exact Hl]. apply set_inside; auto. cbn [n r_min r_max r_addr]. intros p Hp.
        destruct (Hi p Hp) as (tb2 & Hf2 & Hin). rewrite Hf in Hf2. injection Hf2 as <-. exact Hin.
    + intros a Ha. assert (Hne : x <> a) by (intros ->; auto).
      destruct (Hb a (or_intror Ha)) as [Hc|Hi]; [left|right]; intros p Hp.
      * rewrite M2, Rn. intros [[_ [? _]]|Ht]; [auto|]. apply (Hc p Hp). exact Ht.
      * rewrite M2. right. apply Hi. exact Hp.
Qed.

Lemma prefix4_addrs_in : forall p a, wt_prefix4 p -> prefix4_validate p = OK ->
  In a (prefix4_addrs p) <-> in_prefix 32 (p4_addr p) (p4_len p) a.
Proof.
  intros p a Hw Hv. rewrite prefix4_next_spec by auto. unfold prefix4_addrs. rewrite in_map_iff. split.
  - intros (i & <- & Hi). apply in_seq in Hi. lia.
  - intros H. exists (Z.to_nat (a - p4_addr p)). split; [lia|]. apply in_seq. lia.
Qed.
Lemma prefix4_addrs_nodup : forall p, NoDup (prefix4_addrs p).
Proof.
  intros p. unfold prefix4_addrs. apply FinFun.Injective_map_NoDup; [intros i j; lia|apply seq_NoDup].
Qed.
Lemma prefix4_addrs_u32 : forall p, wt_prefix4 p -> prefix4_validate p = OK -> Forall is_u32 (prefix4_addrs p).
Proof.
  intros p Hw Hv. apply Forall_forall. intros a Ha. apply prefix4_addrs_in in Ha; auto.
  pose proof Hv as Hv'. apply prefix4_validate_spec in Hv'; auto. destruct Hv' as [Hl Hm].
  destruct Hw as [Hu Hl8]. unfold in_prefix, is_u32, is_u8 in *.
  assert (Hp : 0 < 2 ^ (32 - p4_len p)) by (apply Z.pow_pos_nonneg; lia).
  set (d := 2 ^ (32 - p4_len p)) in *.
  pose proof (Z.div_mod (p4_addr p) d ltac:(lia)) as D1. pose proof (Z.div_mod a d ltac:(lia)) as D2.
  pose proof (Z.mod_pos_bound a d Hp) as B. rewrite Ha in D2. rewrite Hm in D1.
  split; [lia|].
  replace (2^32) with (2 ^ p4_len p * d) in * by (unfold d; rewrite <- Z.pow_add_r by lia; f_equal; lia).
  assert (p4_addr p / d < 2 ^ p4_len p) by nia. nia.
Qed.
