From Coq Require FinFun.
Require Import Verif.Base Verif.Addr_Model Verif.Addr_Spec Verif.Addr_Proofs Verif.Rtrie_Model Verif.Paging.
Require Import Verif.Pool4_Model Verif.Pool4_Spec Verif.Pool4_Proofs Verif.Pool4_Trees Verif.Pool4_Hist Verif.Pool4_Lookup.
Local Ltac Zify.zify_post_hook ::= idtac.

Definition seqb (x y : Z * range) : bool := (fst x =? fst y) && ipv4_range_equals (snd x) (snd y).
Lemma seqb_spec : forall a b, seqb a b = true <-> a = b.
Proof.
  intros [m [a l lo hi]] [m2 [a2 l2 lo2 hi2]]. unfold seqb, ipv4_range_equals. cbn [fst snd r_addr r_len r_min r_max]. split; intros H.
  - repeat f_equal; lia.
  - injection H as -> -> -> -> ->. lia.
Qed.
Lemma range_eqb_spec : forall a b, ipv4_range_equals a b = true <-> a = b.
Proof.
  intros a b. pose proof (seqb_spec (0, a) (0, b)) as H. unfold seqb in H. cbn [fst snd] in H. rewrite Z.eqb_refl in H. cbn [andb] in H.
  rewrite H. split; intros E; [injection E; auto|congruence].
Qed.

Lemma samples_in : forall tr m r, In (m, r) (samples tr) <-> exists tb, In (m, tb) tr /\ In r (t_ranges tb).
Proof.
  intros tr m r. unfold samples. rewrite in_flat_map. split.
  - intros ([k tb] & H1 & H2). cbn [fst snd] in H2. apply in_map_iff in H2. destruct H2 as (x & E & H2). injection E as -> ->. eauto.
  - intros (tb & H1 & H2). exists (m, tb). split; [exact H1|]. cbn [fst snd]. apply in_map_iff. eauto.
Qed.

Lemma ordered_nodup : forall l, Forall wfr l -> ordered l -> NoDup l.
Proof.
  induction l as [|r l IH]; intros W O; [constructor|]. destruct O as [O1 O2]. constructor; [|apply IH; [apply (Forall_inv_tail W)|exact O2]].
  intros Hi. specialize (O1 r Hi). pose proof (Forall_inv W) as Wr. unfold before, wfr in *. lia.
Qed.

Lemma samples_nodup : forall tr, tree_ok tr -> NoDup (samples tr).
Proof.
  intros tr [Hn Hok]. induction tr as [|[k tb] tr IH]; [constructor|]. cbn [samples flat_map fst snd]. fold (samples tr).
  cbn [map fst] in Hn. apply NoDup_cons_iff in Hn. destruct Hn as [H1 H2].
  destruct (Hok k tb (or_introl eq_refl)) as (_ & T2 & T3 & _). apply NoDup_app_intro.
  - apply FinFun.Injective_map_NoDup; [intros a b E; injection E; auto|]. apply ordered_nodup; auto.
  - apply IH; [exact H2|]. intros k' tb' Hi. apply (Hok k'). right. exact Hi.
  - intros [m r] Hi1 Hi2. apply in_map_iff in Hi1. destruct Hi1 as (x & E & _). injection E as -> ->.
    apply samples_in in Hi2. destruct Hi2 as (tb' & Hi2 & _). apply H1. apply in_map_iff. exists (m, tb'). auto.
Qed.

Lemma find_offset_spec : forall l r, In r l -> exists pre post, l = pre ++ r :: post /\ ~ In r pre /\ find_offset l r = Some post.
Proof.
  induction l as [|x l IH]; intros r Hi; [destruct Hi|]. cbn [find_offset].
  destruct (ipv4_range_equals r x) eqn:E.
  - apply range_eqb_spec in E. subst x. exists [], l. auto.
  - destruct Hi as [->|Hi]; [rewrite (proj2 (range_eqb_spec r r) eq_refl) in E; discriminate|].
    destruct (IH r Hi) as (pre & post & -> & Hn & ->). exists (x :: pre), post. split; [reflexivity|]. split; [|reflexivity].
    intros [->|H]; [rewrite (proj2 (range_eqb_spec r r) eq_refl) in E; discriminate|auto].
Qed.

Lemma tables_after_spec : forall tr k tb, NoDup (map fst tr) -> tree_find k tr = Some tb ->
  exists pre, tr = pre ++ (k, tb) :: tables_after k tr /\ ~ In k (map fst pre).
Proof.
  induction tr as [|[k' tb'] tr IH]; intros k tb Hn Hf; [discriminate|]. rewrite find_cons in Hf. cbn [tables_after fst].
  cbn [map fst] in Hn. apply NoDup_cons_iff in Hn. destruct Hn as [H1 H2].
  destruct (k' =? k) eqn:E.
  - injection Hf as ->. assert (k' = k) by lia. subst. exists []. auto.
  - destruct (IH k tb H2 Hf) as (pre & Ep & Hn). exists ((k', tb') :: pre). split; [cbn [app]; f_equal; exact Ep|].
    cbn [map fst]. intros [->|H]; [lia|auto].
Qed.

Lemma page_same : forall tr cap o, tree_ok tr -> (o = None \/ exists x, o = Some x /\ In x (samples tr)) ->
  pool4db_foreach_sample tr cap o = foreach_page seqb (samples tr) cap o.
Proof.
  intros tr cap o Hok Ho. unfold pool4db_foreach_sample. destruct o as [[m r]|].
  2:{ symmetry. apply foreach_page_none. }
  destruct Ho as [?|(x & E & Hi)]; [discriminate|]. injection E as <-.
  pose proof (samples_nodup tr Hok) as Nd. destruct Hok as [Hn Hok].
  apply samples_in in Hi. destruct Hi as (tb & Hi & Hr). pose proof (find_some _ _ _ Hn Hi) as Hf. rewrite Hf.
  destruct (find_offset_spec _ _ Hr) as (pre & post & El & Hnp & ->).
  destruct (tables_after_spec _ _ _ Hn Hf) as (tp & Et & Hnt).
  assert (Es : samples tr = (samples tp ++ map (fun r => (m, r)) pre) ++ (m, r) :: (map (fun r => (m, r)) post ++ samples (tables_after m tr))).
  { rewrite Et at 1. unfold samples. rewrite flat_map_app. cbn [flat_map fst snd]. rewrite El, map_app. cbn [map].
    rewrite <- !app_assoc. reflexivity. }
  rewrite Es. rewrite (foreach_page_skip seqb seqb_spec).
  - symmetry. apply foreach_page_none.
  - rewrite Es in Nd. apply NoDup_remove_2 in Nd. intros H. apply Nd. apply in_or_app. left. exact H.
Qed.

Lemma foreach_page_incl : forall A (eqb : A -> A -> bool) l cap o p b o', foreach_page eqb l cap o = (p, b, o') -> incl p l.
Proof.
  intros A eqb. induction l as [|x l IH]; intros cap o p b o' H; cbn [foreach_page] in H.
  - injection H as <- <- <-. intros y [].
  - destruct o as [z|].
    + apply IH in H. intros y Hy. right. apply H. exact Hy.
    + destruct cap as [|c]; [injection H as <- <- <-; intros y []|].
      destruct (foreach_page eqb l c None) as [[q m] o2] eqn:E. injection H as <- <- <-. apply IH in E.
      intros y [->|Hy]; [left; reflexivity|right; apply E; exact Hy].
Qed.

Lemma last_in : forall A (l : list A) x, In (last l x) (x :: l).
Proof.
  induction l as [|y l IH]; intros x; [left; reflexivity|]. destruct l as [|z l]; [right; left; reflexivity|].
  change (last (y :: z :: l) x) with (last (z :: l) x). destruct (IH x) as [E|H]; [left; exact E|right; right; exact H].
Qed.

Lemma client_ext : forall A (eqb : A -> A -> bool) page l caps o,
  (forall c o, o = None \/ (exists x, o = Some x /\ In x l) -> page c o = foreach_page eqb l c o) ->
  o = None \/ (exists x, o = Some x /\ In x l) -> client page caps o = client (foreach_page eqb l) caps o.
Proof.
  intros A eqb page l. induction caps as [|c caps IH]; intros o Hp Ho; [reflexivity|]. cbn [client]. rewrite (Hp c o Ho).
  destruct (foreach_page eqb l c o) as [[p b] o'] eqn:E. pose proof (foreach_page_incl _ _ _ _ _ _ _ _ E) as Hi.
  destruct o'; [reflexivity|]. destruct b; [|reflexivity]. destruct p as [|x p]; [reflexivity|]. f_equal. apply IH; [exact Hp|].
  right. exists (last p x). split; [reflexivity|]. apply Hi. apply last_in.
Qed.

Lemma pool4_pages : forall tr caps, tree_ok tr -> Forall (fun c => (1 <= c)%nat) caps -> (length (samples tr) < length caps)%nat ->
  client (pool4db_foreach_sample tr) caps None = LDone (samples tr).
Proof.
  intros tr caps Hok Hc Hl. rewrite (client_ext _ seqb _ (samples tr)).
  - apply (list_pages_exact seqb seqb_spec); auto. apply samples_nodup. exact Hok.
  - intros c o Ho. apply page_same; auto.
  - left. reflexivity.
Qed.
