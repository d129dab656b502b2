(** Properties of the tree walks (C53): the trees of the BIB may be taken as
    sorted lists, and slots as positions. *)
Require Import Verif.Base Verif.Fsm_Model Verif.Bib_Model Verif.Rbtree_Model.
From Coq Require Import Sorting.Sorted.
Local Ltac Zify.zify_post_hook ::= idtac.

(** ** Specification *)
Definition lt_ta (a b : ta) : Prop := fst a < fst b \/ fst a = fst b /\ snd a < snd b.
(** A search tree. *)
Definition ordered_tree (key : Z -> ta) (t : bt) : Prop := StronglySorted (fun i j => lt_ta (key i) (key j)) (inorder t).

(** ** Lemmas *)
Lemma ta_cmp_lt : forall a b, ta_cmp a b = Lt <-> lt_ta a b.
Proof.
  intros [a1 a2] [b1 b2]. unfold ta_cmp, lt_ta. cbn [fst snd]. destruct (Z.compare_spec a1 b1).
  - subst. destruct (Z.compare_spec a2 b2); split; intros; try discriminate; try lia; reflexivity.
  - split; intros; [left; assumption|reflexivity].
  - split; intros; [discriminate|lia].
Qed.
Lemma ta_cmp_gt : forall a b, ta_cmp a b = Gt <-> lt_ta b a.
Proof.
  intros [a1 a2] [b1 b2]. unfold ta_cmp, lt_ta. cbn [fst snd]. destruct (Z.compare_spec a1 b1).
  - subst. destruct (Z.compare_spec a2 b2); split; intros; try discriminate; try lia; reflexivity.
  - split; intros; [discriminate|lia].
  - split; intros; [left; assumption|reflexivity].
Qed.
Lemma ta_cmp_eq : forall a b, ta_cmp a b = Eq <-> a = b.
Proof.
  intros [a1 a2] [b1 b2]. unfold ta_cmp. cbn [fst snd]. destruct (Z.compare_spec a1 b1).
  - subst. destruct (Z.compare_spec a2 b2); split; intros E; try discriminate; try (injection E; lia); subst; reflexivity.
  - split; intros E; [discriminate|injection E; lia].
  - split; intros E; [discriminate|injection E; lia].
Qed.
Lemma lt_ta_trans : forall a b c, lt_ta a b -> lt_ta b c -> lt_ta a c.
Proof. unfold lt_ta. intros. lia. Qed.
Lemma lt_ta_irr : forall a, ~ lt_ta a a.
Proof. unfold lt_ta. intros. lia. Qed.

Lemma ss_app : forall (A : Type) (R : A -> A -> Prop) l x r, StronglySorted R (l ++ x :: r) ->
  StronglySorted R l /\ StronglySorted R r /\ Forall (fun y => R y x) l /\ Forall (R x) r.
Proof.
  intros A R l. induction l as [|y l IH]; intros x r H; cbn [app] in H; apply StronglySorted_inv in H; destruct H as [H1 H2].
  - split; [constructor|]. split; [exact H1|]. split; [constructor|exact H2].
  - destruct (IH _ _ H1) as (I1 & I2 & I3 & I4). rewrite Forall_app in H2. destruct H2 as [H2 H3]. apply Forall_inv in H3 as H4.
    split; [constructor; assumption|]. split; [exact I2|]. split; [constructor; assumption|exact I4].
Qed.
Lemma ordered_nodup : forall (key : Z -> ta) l, StronglySorted (fun i j => lt_ta (key i) (key j)) l -> NoDup l.
Proof.
  intros key l. induction 1 as [|i l H IH F]; constructor; [|exact IH]. intros Hi. rewrite Forall_forall in F. exact (lt_ta_irr _ (F _ Hi)).
Qed.

(** Where [k] belongs in a list: everything before it is smaller, everything
    from there on is not. *)
Definition belongs (key : Z -> ta) (k : ta) (l : list Z) (n : nat) : Prop :=
  (n <= length l)%nat /\ (forall i, In i (firstn n l) -> lt_ta (key i) k) /\ (forall i, In i (skipn n l) -> lt_ta k (key i)).

Lemma link_notin : forall t p lw new, ~ In p (inorder t) -> link_below t p lw new = None.
Proof.
  induction t as [|l IHl i r IHr]; intros p lw new H; cbn [link_below inorder] in *; [reflexivity|].
  rewrite in_app_iff in H. cbn [In] in H. destruct (i =? p) eqn:E; [exfalso; apply H; right; left; lia|].
  rewrite IHl, IHr by tauto. reflexivity.
Qed.
Lemma after_nth : forall l m p, NoDup l -> nth_error l m = Some p -> after p l = nth_error l (S m).
Proof.
  induction l as [|j l IH]; intros [|m] p Hnd H; cbn [nth_error after] in *; try discriminate.
  - injection H as ->. rewrite Z.eqb_refl. destruct l; reflexivity.
  - apply NoDup_cons_iff in Hnd. destruct Hnd as [H1 H2]. destruct (j =? p) eqn:E.
    + exfalso. apply H1. apply Z.eqb_eq in E. subst. eapply nth_error_In; eassumption.
    + apply IH; assumption.
Qed.
Lemma firstn_skipn_left : forall (A : Type) n (l : list A) x r, (n <= length l)%nat ->
  firstn n (l ++ x :: r) = firstn n l /\ skipn n (l ++ x :: r) = skipn n l ++ x :: r.
Proof.
  intros A n l x r H. rewrite firstn_app, skipn_app. replace (n - length l)%nat with 0%nat by lia. rewrite app_nil_r. auto.
Qed.
Lemma firstn_skipn_right : forall (A : Type) n (l : list A) x r,
  firstn (S (length l) + n) (l ++ x :: r) = l ++ x :: firstn n r /\ skipn (S (length l) + n) (l ++ x :: r) = skipn n r.
Proof.
  intros A n l x r. rewrite firstn_app, skipn_app. replace (S (length l) + n - length l)%nat with (S n) by lia.
  rewrite firstn_all2, skipn_all2 by lia. auto.
Qed.

(** The place a slot stands for: its position in the list, and the neighbour
    it hangs from. *)
Definition hangs (t : bt) (s : slot) (n : nat) : Prop :=
  match t, parent s with
  | Lf, _ => n = 0%nat
  | _, None => False
  | _, Some p =>
    (forall new, exists t', link_below t p (leftw s) new = Some t' /\ inorder t' = insert_at n new (inorder t)) /\
    (if leftw s then nth_error (inorder t) n = Some p else (0 < n)%nat /\ nth_error (inorder t) (pred n) = Some p)
  end.

Lemma find_slot_spec : forall key k t s, ordered_tree key t ->
  match find_slot_loop (fun i => ta_cmp (key i) k) t s with
  | (Some i, _) => In i (inorder t) /\ key i = k
  | (None, s') => (t = Lf -> s' = s) /\ exists n, belongs key k (inorder t) n /\ hangs t s' n
  end.
Proof.
  intros key k. induction t as [|l IHl i r IHr]; intros s H; cbn [find_slot_loop].
  - split; [reflexivity|]. exists 0%nat. split; [|reflexivity]. split; [apply le_n|]. split; intros x [].
  - unfold ordered_tree in H. cbn [inorder] in H. pose proof (ordered_nodup _ _ H) as Hnd.
    apply ss_app in H. destruct H as (H1 & H2 & H3 & H4). rewrite Forall_forall in H3, H4.
    destruct (ta_cmp (key i) k) eqn:E.
    + apply ta_cmp_eq in E. split; [|exact E]. cbn [inorder]. apply in_or_app. right. left. reflexivity.
    + apply ta_cmp_lt in E. specialize (IHr (Slot (Some i) false) H2).
      destruct (find_slot_loop _ r _) as [[j|] s'].
      { destruct IHr as [I1 I2]. split; [|exact I2]. cbn [inorder]. apply in_or_app. right. right. exact I1. }
      destruct IHr as (I0 & n & (B1 & B2 & B3) & Hh). split; [discriminate|]. exists (S (length (inorder l)) + n)%nat.
      destruct (firstn_skipn_right _ n (inorder l) i (inorder r)) as [Ef Es]. split.
      * split; [cbn [inorder]; rewrite app_length; cbn [length]; lia|]. cbn [inorder]. rewrite Ef, Es. split; [|exact B3].
        intros x Hx. apply in_app_or in Hx. destruct Hx as [Hx|[<-|Hx]]; [eapply lt_ta_trans; [apply H3; exact Hx|exact E]|exact E|apply B2; exact Hx].
      * destruct r as [|rl ri rr].
        -- rewrite (I0 eq_refl). cbn [hangs] in Hh. subst n. cbn [hangs parent leftw]. split.
           ++ intros new. cbn [link_below]. rewrite Z.eqb_refl. eexists. split; [reflexivity|]. unfold insert_at. cbn [inorder app] in *. rewrite Ef, Es. rewrite <- app_assoc. reflexivity.
           ++ split; [lia|]. cbn [inorder]. rewrite Nat.add_0_r. cbn [Nat.pred]. rewrite nth_error_app2 by lia. rewrite Nat.sub_diag. reflexivity.
        -- set (r := Nd rl ri rr) in *. cbn [hangs]. assert (Hh' : exists p, parent s' = Some p) by (unfold r in Hh; cbn [hangs] in Hh; destruct (parent s'); [eauto|destruct Hh]).
           destruct Hh' as [p Hp]. unfold r in Hh; cbn [hangs] in Hh; fold r in Hh. rewrite Hp in *. destruct Hh as [L1 L2].
           assert (Hpin : In p (inorder r)) by (destruct (leftw s'); [eapply nth_error_In; exact L2|eapply nth_error_In; apply L2]).
           assert (Hpni : p <> i /\ ~ In p (inorder l)).
           { apply NoDup_remove in Hnd as [Hnd1 Hnd2]. split; [intros ->; apply Hnd2; apply in_or_app; right; exact Hpin|].
             intros Hl. apply NoDup_app_disj with (1 := Hnd1) (2 := Hl) (3 := Hpin) || (clear -Hnd1 Hl Hpin; revert Hnd1 Hl; induction (inorder l) as [|y q IH]; intros Hnd1 []; [subst; apply NoDup_cons_iff in Hnd1; apply Hnd1; apply in_or_app; right; exact Hpin|apply NoDup_cons_iff in Hnd1; apply IH; [apply Hnd1|assumption]]). }
           split.
           ++ intros new. destruct (L1 new) as (t' & T1 & T2). cbn [link_below]. replace (i =? p) with false by lia.
              rewrite link_notin by tauto. rewrite T1. eexists. split; [reflexivity|]. cbn [inorder]. rewrite T2. unfold insert_at. rewrite Ef, Es.
              rewrite <- app_assoc. reflexivity.
           ++ cbn [inorder]. destruct (leftw s').
              ** rewrite nth_error_app2 by lia. replace (S (length (inorder l)) + n - length (inorder l))%nat with (S n) by lia. exact L2.
              ** destruct L2 as [L2 L3]. split; [lia|]. rewrite nth_error_app2 by lia.
                 replace (pred (S (length (inorder l)) + n) - length (inorder l))%nat with (S (pred n)) by lia. exact L3.
    + apply ta_cmp_gt in E. specialize (IHl (Slot (Some i) true) H1).
      destruct (find_slot_loop _ l _) as [[j|] s'].
      { destruct IHl as [I1 I2]. split; [|exact I2]. cbn [inorder]. apply in_or_app. left. exact I1. }
      destruct IHl as (I0 & n & (B1 & B2 & B3) & Hh). split; [discriminate|]. exists n.
      destruct (firstn_skipn_left _ n (inorder l) i (inorder r) B1) as [Ef Es]. split.
      * split; [cbn [inorder]; rewrite app_length; lia|]. cbn [inorder]. rewrite Ef, Es. split; [exact B2|].
        intros x Hx. apply in_app_or in Hx. destruct Hx as [Hx|[<-|Hx]]; [apply B3; exact Hx|exact E|eapply lt_ta_trans; [exact E|apply H4; exact Hx]].
      * destruct l as [|ll li lr].
        -- rewrite (I0 eq_refl). cbn [hangs] in Hh. subst n. cbn [hangs parent leftw]. split.
           ++ intros new. cbn [link_below]. rewrite Z.eqb_refl. eexists. split; [reflexivity|]. reflexivity.
           ++ reflexivity.
        -- set (l := Nd ll li lr) in *. cbn [hangs]. assert (Hh' : exists p, parent s' = Some p) by (unfold l in Hh; cbn [hangs] in Hh; destruct (parent s'); [eauto|destruct Hh]).
           destruct Hh' as [p Hp]. unfold l in Hh; cbn [hangs] in Hh; fold l in Hh. rewrite Hp in *. destruct Hh as [L1 L2].
           assert (Hpin : In p (inorder l)) by (destruct (leftw s'); [eapply nth_error_In; exact L2|eapply nth_error_In; apply L2]).
           assert (Hpni : p <> i).
           { apply NoDup_remove in Hnd as [Hnd1 Hnd2]. intros ->. apply Hnd2. apply in_or_app. left. exact Hpin. }
           split.
           ++ intros new. destruct (L1 new) as (t' & T1 & T2). cbn [link_below]. replace (i =? p) with false by lia.
              rewrite T1. eexists. split; [reflexivity|]. cbn [inorder]. rewrite T2. unfold insert_at. rewrite Ef, Es.
              rewrite <- app_assoc. reflexivity.
           ++ cbn [inorder]. assert (Lt' : forall m x, nth_error (inorder l) m = Some x -> nth_error (inorder l ++ i :: inorder r) m = Some x).
              { intros m x Hm. rewrite nth_error_app1; [exact Hm|]. apply nth_error_Some. congruence. }
              destruct (leftw s'); [apply Lt'; exact L2|]. split; [apply L2|apply Lt'; apply L2].
Qed.

Lemma nodup_split : forall (l : list Z) x r, NoDup (l ++ x :: r) ->
  (forall y, In y l -> ~ In y r) /\ ~ In x l /\ ~ In x r.
Proof.
  induction l as [|y l IH]; intros x r H; cbn [app] in H; apply NoDup_cons_iff in H; destruct H as [H1 H2].
  - split; [intros y []|]. split; [intros []|exact H1].
  - destruct (IH _ _ H2) as (I1 & I2 & I3). rewrite in_app_iff in H1. cbn [In] in H1. split.
    + intros z [<-|Hz]; [tauto|apply I1; exact Hz].
    + split; [|exact I3]. intros [->|Hx]; tauto.
Qed.

Lemma insert_right : forall n new (l : list Z) i r,
  insert_at (S (length l) + n) new (l ++ i :: r) = l ++ i :: insert_at n new r.
Proof.
  intros. unfold insert_at. destruct (firstn_skipn_right _ n l i r) as [E1 E2]. rewrite E1, E2, <- app_assoc. reflexivity.
Qed.
Lemma insert_left : forall n new (l : list Z) i r, (n <= length l)%nat ->
  insert_at n new (l ++ i :: r) = insert_at n new l ++ i :: r.
Proof.
  intros. unfold insert_at. destruct (firstn_skipn_left _ n l i r H) as [E1 E2]. rewrite E1, E2, <- app_assoc. reflexivity.
Qed.

(** Linking below the predecessor (no right child), or below its successor. *)
Lemma right_child_notin : forall t p, ~ In p (inorder t) -> right_child t p = None.
Proof.
  induction t as [|l IHl i r IHr]; intros p H; cbn [right_child inorder] in *; [reflexivity|].
  rewrite in_app_iff in H. cbn [In] in H. destruct (i =? p) eqn:E; [exfalso; apply H; right; left; lia|].
  rewrite IHl, IHr by tauto. reflexivity.
Qed.
Lemma right_child_in : forall t p, In p (inorder t) -> exists x, right_child t p = Some x.
Proof.
  induction t as [|l IHl i r IHr]; intros p H; cbn [right_child inorder] in *; [destruct H|].
  destruct (i =? p) eqn:E; [eauto|]. destruct (right_child l p) eqn:E2; [eauto|].
  apply in_app_or in H. destruct H as [H|[H|H]]; [|lia|apply IHr; exact H]. destruct (IHl _ H). congruence.
Qed.
Lemma link_first : forall t new j, NoDup (inorder t) -> nth_error (inorder t) 0 = Some j ->
  exists t', link_below t j true new = Some t' /\ inorder t' = new :: inorder t.
Proof.
  induction t as [|l IHl i r IHr]; intros new j Hnd H; cbn [inorder] in *; [discriminate|].
  destruct l as [|ll li lr].
  - cbn [app inorder nth_error] in *. injection H as ->. cbn [link_below]. rewrite Z.eqb_refl. eexists. split; reflexivity.
  - set (l := Nd ll li lr) in *. assert (Hl : nth_error (inorder l) 0 = Some j).
    { rewrite nth_error_app1 in H; [exact H|]. unfold l. cbn [inorder]. rewrite app_length. cbn [length]. lia. }
    destruct (nodup_split _ _ _ Hnd) as (N1 & N2 & N3).
    destruct (IHl new j) as (t' & T1 & T2); [|exact Hl|].
    { clear -Hnd. revert Hnd. induction (inorder l) as [|y q IH]; intros Hnd; [constructor|]. cbn [app] in Hnd. apply NoDup_cons_iff in Hnd. constructor; [rewrite in_app_iff in Hnd; tauto|apply IH; tauto]. }
    cbn [link_below]. replace (i =? j) with false. 2:{ symmetry. apply Z.eqb_neq. intros ->. apply N2. eapply nth_error_In; exact Hl. }
    rewrite T1. eexists. split; [reflexivity|]. cbn [inorder]. rewrite T2. reflexivity.
Qed.
Lemma nodup_parts : forall (l : list Z) x r, NoDup (l ++ x :: r) -> NoDup l /\ NoDup r.
Proof.
  induction l as [|y l IH]; intros x r H; cbn [app] in H; apply NoDup_cons_iff in H; destruct H as [H1 H2].
  - split; [constructor|exact H2].
  - destruct (IH _ _ H2) as [I1 I2]. split; [|exact I2]. constructor; [rewrite in_app_iff in H1; tauto|exact I1].
Qed.

Lemma try_next_links : forall t n p, NoDup (inorder t) -> nth_error (inorder t) n = Some p ->
  forall new, exists t',
    link_below t (match right_child t p, nth_error (inorder t) (S n) with Some (Nd _ _ _), Some j => j | _, _ => p end)
                 (match right_child t p with Some (Nd _ _ _) => true | _ => false end) new = Some t' /\
    inorder t' = insert_at (S n) new (inorder t) /\
    (match right_child t p with Some (Nd _ _ _) => exists j, nth_error (inorder t) (S n) = Some j | _ => True end).
Proof.
  induction t as [|l IHl i r IHr]; intros n p Hnd Hn new; cbn [inorder] in *; [destruct n; discriminate|].
  destruct (nodup_split _ _ _ Hnd) as (N1 & N2 & N3). destruct (nodup_parts _ _ _ Hnd) as [D1 D2].
  destruct (Nat.lt_trichotomy n (length (inorder l))) as [Hlt|[Heq|Hgt]].
  - rewrite nth_error_app1 in Hn by exact Hlt. assert (Hp : In p (inorder l)) by (eapply nth_error_In; exact Hn).
    assert (Hpi : (i =? p) = false) by (apply Z.eqb_neq; intros ->; tauto).
    cbn [right_child link_below]. rewrite Hpi.
    destruct (right_child_in l p Hp) as [x Hx]. rewrite Hx. destruct (IHl n p D1 Hn new) as (t' & T1 & T2 & T3). rewrite Hx in T1, T3.
    rewrite insert_left by lia. destruct x as [|x1 x2 x3].
    + rewrite Hpi. exists (Nd t' i r). rewrite T1. cbn [inorder]. rewrite T2. auto.
    + destruct T3 as [j Hj]. rewrite Hj in T1. assert (Hjn : nth_error (inorder l ++ i :: inorder r) (S n) = Some j).
      { rewrite nth_error_app1; [exact Hj|]. apply nth_error_Some. congruence. }
      rewrite Hjn. assert (Hji : (i =? j) = false) by (apply Z.eqb_neq; intros ->; apply N2; eapply nth_error_In; exact Hj).
      rewrite Hji. exists (Nd t' i r). rewrite T1. cbn [inorder]. rewrite T2. eauto.
  - subst n. rewrite nth_error_app2, Nat.sub_diag in Hn by lia. cbn [nth_error] in Hn. injection Hn as ->.
    cbn [right_child link_below]. rewrite Z.eqb_refl. rewrite <- (Nat.add_0_r (S (length (inorder l)))). rewrite insert_right.
    destruct r as [|rl ri rr].
    + rewrite Z.eqb_refl. eexists. split; [reflexivity|]. split; [reflexivity|exact I].
    + set (r := Nd rl ri rr) in *. rewrite nth_error_app2 by lia. replace (S (length (inorder l)) + 0 - length (inorder l))%nat with 1%nat by lia.
      cbn [nth_error]. destruct (inorder r) as [|j q] eqn:Er; [unfold r in Er; cbn [inorder] in Er; destruct (inorder rl); discriminate|].
      replace (p =? j) with false. 2:{ symmetry. apply Z.eqb_neq. intros ->. apply N3. left. reflexivity. }
      rewrite link_notin. 2:{ intros Hj. apply (N1 _ Hj). left. reflexivity. }
      destruct (link_first r new j) as (t' & T1 & T2); [rewrite Er; exact D2|rewrite Er; reflexivity|]. unfold r in *. rewrite T1. eexists. split; [reflexivity|].
      cbn [inorder] in *. rewrite T2, Er. split; [reflexivity|eauto].
  - rewrite nth_error_app2 in Hn by lia. destruct (n - length (inorder l))%nat as [|m] eqn:Em; [lia|]. cbn [nth_error] in Hn.
    assert (En : n = (S (length (inorder l)) + m)%nat) by lia. assert (Hp : In p (inorder r)) by (eapply nth_error_In; exact Hn).
    assert (Hpi : (i =? p) = false) by (apply Z.eqb_neq; intros ->; tauto).
    assert (Hpl : ~ In p (inorder l)) by (intros H; exact (N1 _ H Hp)).
    cbn [right_child link_below]. rewrite Hpi, (right_child_notin l p Hpl).
    destruct (right_child_in r p Hp) as [x Hx]. rewrite Hx. destruct (IHr m p D2 Hn new) as (t' & T1 & T2 & T3). rewrite Hx in T1, T3.
    replace (S n) with (S (length (inorder l)) + S m)%nat by lia. rewrite insert_right.
    assert (Hnx : nth_error (inorder l ++ i :: inorder r) (S (length (inorder l)) + S m) = nth_error (inorder r) (S m)).
    { rewrite nth_error_app2 by lia. replace (S (length (inorder l)) + S m - length (inorder l))%nat with (S (S m)) by lia. reflexivity. }
    rewrite Hnx. destruct x as [|x1 x2 x3].
    + rewrite Hpi, link_notin by exact Hpl. exists (Nd l i t'). rewrite T1. cbn [inorder]. rewrite T2. auto.
    + destruct T3 as [j Hj]. rewrite Hj in T1 |- *. assert (Hj' : In j (inorder r)) by (eapply nth_error_In; exact Hj).
      assert (Hji : (i =? j) = false) by (apply Z.eqb_neq; intros ->; tauto).
      rewrite Hji, link_notin. 2:{ intros H. exact (N1 _ H Hj'). }
      exists (Nd l i t'). rewrite T1. cbn [inorder]. rewrite T2. eauto.
Qed.

(** ** C53: tree walks and sorted lists agree *)

(** rbtree_find finds the node with the key, if there is one. *)
Theorem C53_find : forall key k t, ordered_tree key t ->
  match rbtree_find (fun i => ta_cmp (key i) k) t with
  | Some i => In i (inorder t) /\ key i = k
  | None => forall i, In i (inorder t) -> key i <> k
  end.
Proof.
  intros key k. induction t as [|l IHl i r IHr]; intros H; cbn [rbtree_find]; [intros i []|].
  unfold ordered_tree in H. cbn [inorder] in *. apply ss_app in H. destruct H as (H1 & H2 & H3 & H4). rewrite Forall_forall in H3, H4.
  destruct (ta_cmp (key i) k) eqn:E.
  - apply ta_cmp_eq in E. split; [apply in_or_app; right; left; reflexivity|exact E].
  - apply ta_cmp_lt in E. specialize (IHr H2). destruct (rbtree_find _ r).
    + destruct IHr. split; [apply in_or_app; right; right; assumption|assumption].
    + intros j Hj Ej. apply in_app_or in Hj. destruct Hj as [Hj|[<-|Hj]]; [|subst k; exact (lt_ta_irr _ E)|exact (IHr _ Hj Ej)].
      specialize (H3 _ Hj). subst k. exact (lt_ta_irr _ (lt_ta_trans _ _ _ H3 E)).
  - apply ta_cmp_gt in E. specialize (IHl H1). destruct (rbtree_find _ l).
    + destruct IHl. split; [apply in_or_app; left; assumption|assumption].
    + intros j Hj Ej. apply in_app_or in Hj. destruct Hj as [Hj|[<-|Hj]]; [exact (IHl _ Hj Ej)|subst k; exact (lt_ta_irr _ E)|].
      specialize (H4 _ Hj). subst k. exact (lt_ta_irr _ (lt_ta_trans _ _ _ H4 E)).
Qed.

(** rbtree_find_slot returns the node with the key; if there is none, linking
    a new node at the slot puts it at the place of the key in the order, and
    slot_next is what follows that place. *)
Theorem C53_slot : forall key k t, ordered_tree key t ->
  match rbtree_find_slot (fun i => ta_cmp (key i) k) t with
  | (Some i, _) => In i (inorder t) /\ key i = k
  | (None, s) => exists n, belongs key k (inorder t) n /\ slot_next t s = nth_error (inorder t) n /\
      forall new, exists t', treeslot_commit t s new = Some t' /\ inorder t' = insert_at n new (inorder t)
  end.
Proof.
  intros key k t H. pose proof (find_slot_spec key k t treeslot_init H) as S. unfold rbtree_find_slot.
  destruct (find_slot_loop _ t treeslot_init) as [[i|] s]; [exact S|]. destruct S as (S0 & n & B & Hh). exists n. split; [exact B|].
  destruct t as [|l i r].
  - cbn [hangs] in Hh. subst n. rewrite (S0 eq_refl). split; [reflexivity|]. intros new. eexists. split; reflexivity.
  - set (t := Nd l i r) in *. assert (Hp : exists p, parent s = Some p) by (unfold t in Hh; cbn [hangs] in Hh; destruct (parent s); [eauto|destruct Hh]).
    destruct Hp as [p Hp]. unfold t in Hh; cbn [hangs] in Hh; fold t in Hh. rewrite Hp in Hh. destruct Hh as [L1 L2].
    unfold slot_next, treeslot_commit. rewrite Hp. split; [|exact L1]. destruct (leftw s); [symmetry; exact L2|]. destruct L2 as [L2 L3].
    unfold rb_next. rewrite (after_nth _ _ _ (ordered_nodup _ _ H) L3). f_equal. lia.
Qed.

(** find_starting_point starts at the first key that is not smaller (larger,
    when the offset is excluded) than the offset. *)
Theorem C53_start : forall key k t (include : bool), ordered_tree key t ->
  exists n, find_starting_node t (Some (fun i => ta_cmp (key i) k)) include = nth_error (inorder t) n /\
    (forall i, In i (firstn n (inorder t)) -> if include then lt_ta (key i) k else ~ lt_ta k (key i)) /\
    (forall i, In i (skipn n (inorder t)) -> if include then ~ lt_ta (key i) k else lt_ta k (key i)).
Proof.
  intros key k t include H. pose proof (C53_slot key k t H) as S. unfold find_starting_node.
  assert (Hpar : forall s, rbtree_find_slot (fun i => ta_cmp (key i) k) t = (None, s) ->
    match parent s with None => inorder t = [] | Some p => if leftw s then ta_cmp (key p) k = Gt else ta_cmp (key p) k = Lt end).
  { clear. unfold rbtree_find_slot. assert (G : forall t s s', find_slot_loop (fun i => ta_cmp (key i) k) t s = (None, s') ->
      (t = Lf /\ s' = s) \/ exists p, parent s' = Some p /\ if leftw s' then ta_cmp (key p) k = Gt else ta_cmp (key p) k = Lt).
    { induction t0 as [|l IHl i r IHr]; intros s s' E; cbn [find_slot_loop] in E; [injection E as <-; auto|]. right.
      destruct (ta_cmp (key i) k) eqn:Ec; [discriminate| |].
      - destruct (IHr _ _ E) as [[_ ->]|G]; [|exact G]. exists i. split; [reflexivity|exact Ec].
      - destruct (IHl _ _ E) as [[_ ->]|G]; [|exact G]. exists i. split; [reflexivity|exact Ec]. }
    intros s E. destruct (G _ _ _ E) as [[-> ->]|(p & -> & G')]; [reflexivity|exact G']. }
  destruct (rbtree_find_slot (fun i => ta_cmp (key i) k) t) as [[i|] s].
  - destruct S as [Si Sk]. apply In_nth_error in Si. destruct Si as [m Hm]. pose proof H as H'. unfold ordered_tree in H'.
    destruct (nth_error_split _ _ Hm) as (l & r & El & Elen). rewrite El in H'. apply ss_app in H'. destruct H' as (_ & _ & H3 & H4).
    rewrite Forall_forall in H3, H4. subst k. destruct include.
    + exists m. split; [symmetry; exact Hm|]. rewrite El. split.
      * rewrite firstn_app, Elen, Nat.sub_diag, app_nil_r. intros j Hj. apply H3. rewrite <- Elen, firstn_all in Hj. exact Hj.
      * rewrite skipn_app, Elen, Nat.sub_diag, <- Elen, skipn_all. cbn [app skipn]. intros j [<-|Hj]; [apply lt_ta_irr|].
        intros F. exact (lt_ta_irr _ (lt_ta_trans _ _ _ F (H4 _ Hj))).
    + exists (S m). unfold rb_next. split; [apply after_nth; [exact (ordered_nodup _ _ H)|exact Hm]|]. rewrite El.
      replace (S m) with (S (length l) + 0)%nat by lia. destruct (firstn_skipn_right _ 0 l i r) as [E1 E2]. rewrite E1, E2. split; [|exact H4].
      intros j Hj. apply in_app_or in Hj. destruct Hj as [Hj|[<-|[]]]; [|apply lt_ta_irr].
      intros F. exact (lt_ta_irr _ (lt_ta_trans _ _ _ F (H3 _ Hj))).
  - destruct S as (n & (B1 & B2 & B3) & Sn & _). exists n. split.
    + rewrite <- Sn. unfold slot_next. specialize (Hpar s eq_refl). destruct (parent s) as [p|]; [|reflexivity].
      destruct (leftw s); rewrite Hpar; reflexivity.
    + split; intros j Hj; destruct include; auto.
      * intros F. exact (lt_ta_irr _ (lt_ta_trans _ _ _ F (B2 _ Hj))).
      * intros F. exact (lt_ta_irr _ (lt_ta_trans _ _ _ F (B3 _ Hj))).
Qed.

(** try_next: from the node at one place of the order, the collision is the
    node at the next place if it has the address; else the slot is that place. *)
Theorem C53_try_next : forall key t n p same, ordered_tree key t -> nth_error (inorder t) n = Some p ->
  match try_next_slot t p same with
  | (Some j, _) => nth_error (inorder t) (S n) = Some j /\ same j = true
  | (None, s) => (forall j, nth_error (inorder t) (S n) = Some j -> same j = false) /\
      forall new, exists t', treeslot_commit t s new = Some t' /\ inorder t' = insert_at (S n) new (inorder t)
  end.
Proof.
  intros key t n p same H Hn. pose proof (ordered_nodup _ _ H) as Hnd. unfold try_next_slot, rb_next. rewrite (after_nth _ _ _ Hnd Hn).
  pose proof (try_next_links t n p Hnd Hn) as L. destruct (nth_error (inorder t) (S n)) as [j|] eqn:Ej.
  - destruct (same j) eqn:Es; [auto|]. destruct (right_child t p) as [[|x y z]|]; unfold treeslot_commit; cbn [parent leftw];
      (split; [intros ? [= <-]; exact Es|intros new; destruct (L new) as (t' & T1 & T2 & _); eauto]).
  - split; [discriminate|]. intros new. unfold treeslot_commit; cbn [parent leftw]. destruct (L new) as (t' & T1 & T2 & T3).
    destruct (right_child t p) as [[|x y z]|]; [eauto|destruct T3; discriminate|eauto].
Qed.

(** The [allow] of find_session_slot, gathered only from the nodes on the way
    down, still sees every session of that remote address. *)
Theorem C53_allow : forall key k t, ordered_tree key t ->
  allow_loop key k t false = true <-> exists i, In i (inorder t) /\ fst (key i) = fst k.
Proof.
  intros key k t. assert (T : forall t, allow_loop key k t true = true).
  { induction t0 as [|l IHl i r IHr]; cbn [allow_loop]; [reflexivity|]. destruct (fst (key i) =? fst k); destruct (ta_cmp (key i) k); auto. }
  induction t as [|l IHl i r IHr]; intros H; cbn [allow_loop].
  - split; [discriminate|]. intros (i & [] & _).
  - unfold ordered_tree in H. cbn [inorder] in *. apply ss_app in H. destruct H as (H1 & H2 & H3 & H4). rewrite Forall_forall in H3, H4.
    destruct (fst (key i) =? fst k) eqn:E.
    + split; [|destruct (ta_cmp (key i) k); rewrite ?T; reflexivity]. intros _. exists i. split; [apply in_or_app; right; left; reflexivity|lia].
    + destruct (ta_cmp (key i) k) eqn:Ec.
      * apply ta_cmp_eq in Ec. subst. lia.
      * apply ta_cmp_lt in Ec. rewrite (IHr H2). split; intros (j & Hj & Ej).
        -- exists j. split; [apply in_or_app; right; right; exact Hj|exact Ej].
        -- exists j. split; [|exact Ej]. apply in_app_or in Hj. destruct Hj as [Hj|[<-|Hj]]; [|lia|exact Hj].
           specialize (H3 _ Hj). unfold lt_ta in *. lia.
      * apply ta_cmp_gt in Ec. rewrite (IHl H1). split; intros (j & Hj & Ej).
        -- exists j. split; [apply in_or_app; left; exact Hj|exact Ej].
        -- exists j. split; [|exact Ej]. apply in_app_or in Hj. destruct Hj as [Hj|[<-|Hj]]; [exact Hj|lia|].
           specialize (H4 _ Hj). unfold lt_ta in *. lia.
Qed.

(** Non-vacuity: a tree of five transport addresses on three hosts. *)
Definition ex_key (i : Z) : ta := (i / 2, i).
Definition ex_bt : bt := Nd (Nd Lf 2 (Nd Lf 4 Lf)) 6 (Nd Lf 7 (Nd Lf 11 Lf)).
Example C53_nonvacuous : ordered_tree ex_key ex_bt /\ inorder ex_bt = [2; 4; 6; 7; 11] /\
  rbtree_find (fun i => ta_cmp (ex_key i) (3, 7)) ex_bt = Some 7 /\
  rbtree_find_slot (fun i => ta_cmp (ex_key i) (2, 5)) ex_bt = (None, Slot (Some 4) false) /\
  slot_next ex_bt (Slot (Some 4) false) = Some 6 /\
  find_starting_node ex_bt (Some (fun i => ta_cmp (ex_key i) (3, 6))) false = Some 7 /\
  try_next_slot ex_bt 6 (fun j => j =? 7) = (Some 7, treeslot_init) /\
  try_next_slot ex_bt 6 (fun j => j =? 8) = (None, Slot (Some 7) true) /\
  allow_loop ex_key (1, 3) ex_bt false = true /\ allow_loop ex_key (4, 1) ex_bt false = false.
Proof.
  split. { unfold ordered_tree. cbn [ex_bt inorder app]. repeat constructor; unfold lt_ta, ex_key; cbn; lia. }
  repeat split; vm_compute; reflexivity.
Qed.

Print Assumptions C53_find.
Print Assumptions C53_slot.
Print Assumptions C53_start.
Print Assumptions C53_try_next.
Print Assumptions C53_allow.
