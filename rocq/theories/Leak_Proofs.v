(** The nodes of a trie are those on its list. *)
Require Import Verif.Base Verif.Addr_Model Verif.Rtrie_Model Verif.Eam_Model.
Require Import Verif.Leak_Model Verif.Leak_Spec.

Section P.
Context {V : Type}.
Implicit Type t : trie V.

(** [L]: the live nodes that are on no list. *)
Definition G t (L : list nat) : Prop :=
  NoDup (t_list t ++ L) /\ (forall q, live t q <-> In q (t_list t ++ L)) /\
  (forall q, In q (t_list t ++ L) -> (q < t_next t)%nat).

Definition same t t' : Prop :=
  t_list t' = t_list t /\ t_next t' = t_next t /\ (forall q, live t' q <-> live t q).

Lemma same_refl : forall t, same t t.
Proof. intros t. repeat split; auto. Qed.

Lemma same_trans : forall a b c, same a b -> same b c -> same a c.
Proof.
  intros a b c (A1 & A2 & A3) (B1 & B2 & B3). split; [congruence|]. split; [congruence|].
  intros q. rewrite B3. apply A3.
Qed.

Lemma G_same : forall t t' L, G t L -> same t t' -> G t' L.
Proof.
  intros t t' L (H1 & H2 & H3) (S1 & S2 & S3). split; [rewrite S1; exact H1|]. split.
  - intros q. rewrite S3, S1. apply H2.
  - intros q. rewrite S1, S2. apply H3.
Qed.

Lemma store_same : forall t p n m, deref t p = Ok n -> same t (store t p m).
Proof.
  intros t p n m H. split; [reflexivity|]. split; [reflexivity|]. intros q.
  unfold live, store, hupd; cbn [t_heap]. destruct (Nat.eqb_spec q p) as [->|]; [|reflexivity].
  unfold deref in H. destruct (t_heap t p); [|discriminate H]. split; intros _; discriminate.
Qed.

Lemma bind_ok : forall A B (x : res A) (f : A -> res B) r, bind x f = Ok r -> exists a, x = Ok a /\ f a = Ok r.
Proof. intros A B x f r H. destruct x as [a| |]; [|discriminate H|discriminate H]. exists a. split; [reflexivity|exact H]. Qed.

Lemma set_left_same : forall t p v t', set_left t p v = Ok t' -> same t t'.
Proof. intros t p v t' H. apply bind_ok in H. destruct H as (n & Hn & H). injection H as <-. eapply store_same; eauto. Qed.
Lemma set_right_same : forall t p v t', set_right t p v = Ok t' -> same t t'.
Proof. intros t p v t' H. apply bind_ok in H. destruct H as (n & Hn & H). injection H as <-. eapply store_same; eauto. Qed.
Lemma set_parent_same : forall t p v t', set_parent t p v = Ok t' -> same t t'.
Proof. intros t p v t' H. apply bind_ok in H. destruct H as (n & Hn & H). injection H as <-. eapply store_same; eauto. Qed.
Lemma set_root_same : forall t r, same t (set_root t r).
Proof. intros t r. repeat split; auto. Qed.
Lemma write_slot_same : forall t s v t', write_slot t s v = Ok t' -> same t t'.
Proof.
  intros t [|p|p] v t' H; cbn [write_slot] in H.
  - injection H as <-. apply set_root_same.
  - eapply set_left_same; eauto.
  - eapply set_right_same; eauto.
Qed.

Lemma deref_live : forall t p n, deref t p = Ok n -> live t p.
Proof. intros t p n H. unfold deref in H. unfold live. destruct (t_heap t p); [discriminate|discriminate H]. Qed.

Lemma G_alloc : forall t L n, G t L -> G (snd (alloc t n)) (t_next t :: L).
Proof.
  intros t L n (H1 & H2 & H3). unfold alloc. cbn [snd]. unfold G, live; cbn [t_list t_heap t_next].
  assert (Hf : ~ In (t_next t) (t_list t ++ L)) by (intros H; specialize (H3 _ H); lia).
  split; [|split].
  - apply NoDup_Add with (a := t_next t) (l := t_list t ++ L); [apply Add_app|]. split; assumption.
  - intros q. unfold hupd. destruct (Nat.eqb_spec q (t_next t)) as [->|E].
    + split; [intros _; apply in_or_app; right; left; reflexivity|discriminate].
    + rewrite (H2 q : _ <> None <-> _), !in_app_iff. cbn [In]. split; [tauto|]. intros [?|[?|?]]; [tauto|congruence|tauto].
  - intros q H. rewrite in_app_iff in H. cbn [In] in H.
    assert (q = t_next t \/ In q (t_list t ++ L)) as [->|H'] by (rewrite in_app_iff; intuition congruence); [lia|].
    specialize (H3 _ H'). lia.
Qed.

Lemma G_add : forall t p L, G t (p :: L) -> G (list_add t p) L.
Proof.
  intros t p L (H1 & H2 & H3). unfold G, live, list_add; cbn [t_list t_heap t_next].
  assert (E : forall q, In q ((p :: t_list t) ++ L) <-> In q (t_list t ++ p :: L)).
  { intros q. rewrite !in_app_iff. cbn [In]. tauto. }
  split; [|split].
  - cbn [app]. apply NoDup_remove in H1. constructor; tauto.
  - intros q. rewrite E. apply H2.
  - intros q H. apply E in H. auto.
Qed.

Definition others (p q : nat) : bool := negb (q =? p)%nat.

Lemma G_del : forall t p L, G t L -> G (free (list_del t p) p) (filter (others p) L).
Proof.
  intros t p L (H1 & H2 & H3). unfold G, live, free, list_del; cbn [t_list t_heap t_next].
  change (fun q : nat => negb (q =? p)%nat) with (others p). rewrite <- filter_app.
  split; [|split].
  - apply NoDup_filter. exact H1.
  - intros q. rewrite filter_In. unfold hupd, others. destruct (Nat.eqb_spec q p) as [->|E]; cbn [negb].
    + split; [congruence|]. intros (_ & D). discriminate D.
    + rewrite <- (H2 q). unfold live. tauto.
  - intros q H. apply filter_In in H. apply H3. tauto.
Qed.

Lemma others_length : forall p L, (length (filter (others p) L) <= length L)%nat.
Proof. intros p L. induction L as [|x L IH]; [apply le_n|]. cbn [filter]. destruct (others p x); cbn [length]; lia. Qed.

Lemma G_free_new : forall t p L, G t (p :: L) -> G (free t p) L.
Proof.
  intros t p L (H1 & H2 & H3). unfold G, live, free; cbn [t_list t_heap t_next].
  pose proof (NoDup_remove _ _ _ H1) as (N1 & N2).
  split; [exact N1|]. split.
  - intros q. unfold hupd. destruct (Nat.eqb_spec q p) as [->|E].
    + split; [congruence|]. intros D. contradiction.
    + rewrite (H2 q : _ <> None <-> _), !in_app_iff. cbn [In]. split; [|tauto]. intros [?|[?|?]]; [tauto|congruence|tauto].
  - intros q H. apply H3. rewrite in_app_iff in *. cbn [In]. tauto.
Qed.

(** Some [L'] no longer than [n] will do. *)
Definition Gn t (n : nat) : Prop := exists L, (length L <= n)%nat /\ G t L.

Lemma Gn_del : forall t p n, Gn t n -> Gn (free (list_del t p) p) n.
Proof.
  intros t p n (L & Hn & H). exists (filter (others p) L). split; [|apply G_del; exact H].
  pose proof (others_length p L). lia.
Qed.

Lemma Gn_same : forall t t' n, Gn t n -> same t t' -> Gn t' n.
Proof. intros t t' n (L & Hn & H) S. exists L. split; [exact Hn|]. eapply G_same; eauto. Qed.

Ltac inv H :=
  match type of H with
  | bind ?x ?f = Ok ?r => let a := fresh "a" in let E := fresh "E" in let H' := fresh H in
      apply bind_ok in H; destruct H as (a & E & H); cbv beta in H
  end.

Ltac step_same G0 :=
  match goal with
  | E : set_left ?t _ _ = Ok ?t' |- _ => apply set_left_same in E
  | E : set_right ?t _ _ = Ok ?t' |- _ => apply set_right_same in E
  | E : set_parent ?t _ _ = Ok ?t' |- _ => apply set_parent_same in E
  | E : write_slot ?t _ _ = Ok ?t' |- _ => apply write_slot_same in E
  end.

Ltac chase :=
  repeat match goal with
  | E : set_left _ _ _ = Ok _ |- _ => apply set_left_same in E
  | E : set_right _ _ _ = Ok _ |- _ => apply set_right_same in E
  | E : set_parent _ _ _ = Ok _ |- _ => apply set_parent_same in E
  | E : write_slot _ _ _ = Ok _ |- _ => apply write_slot_same in E
  end;
  repeat match goal with
  | S1 : same ?a ?b, S2 : same ?b ?c |- _ => pose proof (same_trans _ _ _ S1 S2); clear S1 S2
  end.

Lemma swap_nodes_G : forall t old new t' L, G t (new :: L) -> swap_nodes t old new = Ok t' -> Gn t' (length L).
Proof.
  intros t old new t' L HG H. unfold swap_nodes in H. repeat inv H. injection H as <-. chase.
  apply Gn_del. exists L. split; [lia|]. apply G_add. eapply G_same; eauto.
Qed.

Lemma add_to_root_G : forall t ok2 new r t' L, G t (new :: L) -> add_to_root t ok2 new = Ok (r, t') ->
  (r = OK /\ G t' L) \/ (r = Err ENOMEM /\ G t' (new :: L)).
Proof.
  intros t ok2 new r t' L HG H. unfold add_to_root in H. destruct (t_root t) as [root|].
  - inv H. inv H. destruct (key_contains _ _).
    + repeat inv H. injection H as <- <-. chase. left. split; [reflexivity|].
      eapply G_same; [|apply set_root_same]. apply G_add. eapply G_same; eauto.
    + unfold create_inode in H. destruct ok2.
      * destruct (alloc t _) as [i t1] eqn:Ea. repeat inv H. injection H as <- <-. chase.
        left. split; [reflexivity|]. eapply G_same; [|apply set_root_same]. apply G_add. apply G_add.
        eapply G_same; [|eassumption]. pose proof (G_alloc _ _ (Node (Some root) (Some new) None None
          (firstn (key_match (n_key a0) (n_key a)) (n_key a))) HG) as A. rewrite Ea in A. cbn [snd] in A.
        injection Ea as <- _. exact A.
      * injection H as <- <-. right. split; [reflexivity|exact HG].
  - injection H as <- <-. left. split; [reflexivity|]. apply G_add. eapply G_same; [exact HG|apply set_root_same].
Qed.

Lemma add_full_collision_G : forall t ok2 parent new l r rc0 t' L, G t (new :: L) ->
  add_full_collision t ok2 parent new l r = Ok (rc0, t') ->
  (rc0 = OK /\ G t' L) \/ ((rc0 = Err ENOMEM \/ rc0 = Err EINVAL) /\ G t' (new :: L)).
Proof.
  intros t ok2 parent new l r rc0 t' L HG H. unfold add_full_collision in H. do 3 inv H.
  match type of H with match ?c with _ => _ end = _ => destruct c as [[[[[sm h1] h2] hk] len]|] end.
  - unfold create_inode in H. destruct ok2.
    + destruct (alloc t _) as [i t1] eqn:Ea. repeat inv H. injection H as <- <-. chase.
      left. split; [reflexivity|]. apply G_add. apply G_add. eapply G_same; [|eassumption].
      pose proof (G_alloc _ _ (Node (Some h1) (Some h2) None None (firstn len hk)) HG) as A. rewrite Ea in A. cbn [snd] in A.
      injection Ea as <- _. exact A.
    + injection H as <- <-. right. split; [left; reflexivity|exact HG].
  - injection H as <- <-. right. split; [right; reflexivity|exact HG].
Qed.

Lemma simple_success_G : forall t p new r t' L, G t (new :: L) -> simple_success t p new = Ok (r, t') -> r = OK /\ G t' L.
Proof.
  intros t p new r t' L HG H. unfold simple_success in H. inv H. injection H as <- <-. chase. split; [reflexivity|].
  apply G_add. eapply G_same; eauto.
Qed.

Lemma rtrie_add_G : forall t ok1 ok2 k v r t' n, Gn t n -> rtrie_add t ok1 ok2 k v = Ok (r, t') ->
  Gn t' (n + if failed_add (TAdd ok1 ok2 k v) r then 1 else 0).
Proof.
  intros t ok1 ok2 k v r t' n (L & Hn & HG) H. unfold rtrie_add, create_leaf in H.
  destruct ok1; [|injection H as <- <-; exists L; split; [cbn; lia|exact HG]].
  destruct (alloc t _) as [new t1] eqn:Ea.
  pose proof (G_alloc _ _ (Node None None None (Some v) k) HG) as A. rewrite Ea in A. cbn [snd] in A.
  assert (new = t_next t) by (injection Ea as <- _; reflexivity). subst new. clear Ea HG.
  assert (Hok : G t' L -> r = OK -> Gn t' (n + (if failed_add (TAdd true ok2 k v) r then 1 else 0))).
  { intros HG ->. exists L. split; [cbn; lia|exact HG]. }
  assert (Hbad : G t' (t_next t :: L) -> (r = Err ENOMEM \/ r = Err EINVAL) ->
     Gn t' (n + (if failed_add (TAdd true ok2 k v) r then 1 else 0))).
  { intros HG [->| ->]; exists (t_next t :: L); (split; [cbn; lia|exact HG]). }
  assert (Hss : forall ta p, G ta (t_next t :: L) -> simple_success ta p (t_next t) = Ok (r, t') ->
     Gn t' (n + (if failed_add (TAdd true ok2 k v) r then 1 else 0))).
  { intros ta p HG HS. destruct (simple_success_G _ _ _ _ _ _ HG HS) as (? & ?). auto. }
  assert (Hsw : forall ta p, G ta (t_next t :: L) -> bind (swap_nodes ta p (t_next t)) (fun x => Ok (OK, x)) = Ok (r, t') ->
     Gn t' (n + (if failed_add (TAdd true ok2 k v) r then 1 else 0))).
  { intros ta p HG HS. inv HS. injection HS as <- <-. destruct (swap_nodes_G _ _ _ _ _ HG E) as (L' & Hl & HG').
    exists L'. split; [cbn; lia|exact HG']. }
  inv H. destruct a as [parent|].
  - inv H. destruct (key_equals _ _).
    { destruct (n_val a).
      - injection H as <- <-. exists L. split; [cbn; lia|]. apply G_free_new. exact A.
      - eapply Hsw; eauto. }
    destruct (n_left a) as [lc|]; [|inv H; chase; eapply Hss; [eapply G_same; eauto|exact H]].
    destruct (n_right a) as [rch|]; [|inv H; chase; eapply Hss; [eapply G_same; eauto|exact H]].
    do 2 inv H. destruct (key_contains k (n_key a0)); destruct (key_contains k (n_key a1)); cbn [andb] in H.
    + destruct (n_val a).
      * repeat (inv H). chase. eapply Hss; [eapply G_same; eauto|exact H].
      * eapply Hsw; eauto.
    + repeat (inv H). chase. eapply Hss; [eapply G_same; eauto|exact H].
    + repeat (inv H). chase. eapply Hss; [eapply G_same; eauto|exact H].
    + destruct (add_full_collision_G _ _ _ _ _ _ _ _ _ A H) as [(? & ?)|(? & ?)]; auto.
  - destruct (add_to_root_G _ _ _ _ _ _ A H) as [(? & ?)|(? & ?)]; auto.
Qed.

Lemma prune_G : forall fuel t p t' n, Gn t n -> prune t fuel p = Ok t' -> Gn t' n.
Proof.
  induction fuel as [|fuel IH]; intros t p t' n HG H; [discriminate H|]. cbn [prune] in H.
  inv H. inv H. destruct (n_left a) as [c|].
  { repeat inv H. injection H as <-. chase. apply Gn_del. eapply Gn_same; eauto. }
  destruct (n_right a) as [c|].
  { repeat inv H. injection H as <-. chase. apply Gn_del. eapply Gn_same; eauto. }
  inv H. chase.
  assert (HG' : Gn (free (list_del a1 p) p) n) by (apply Gn_del; eapply Gn_same; eauto).
  destruct (n_parent a) as [q|]; [|injection H as <-; exact HG'].
  inv H. destruct (n_val a2); [injection H as <-; exact HG'|]. eapply IH; eauto.
Qed.

Lemma rtrie_rm_G : forall t ok k r t' n, Gn t n -> rtrie_rm t ok k = Ok (r, t') -> Gn t' n.
Proof.
  intros t ok k r t' n HG H. unfold rtrie_rm in H. inv H. destruct a as [p|]; [|injection H as <- <-; exact HG].
  inv H. destruct (key_equals _ _); cbn [negb] in H; [|injection H as <- <-; exact HG].
  assert (Hp : bind (prune t (S (t_next t)) p) (fun x => Ok (OK, x)) = Ok (r, t') -> Gn t' n).
  { intros HP. inv HP. injection HP as <- <-. eapply prune_G; eauto. }
  destruct (n_left a) as [l|]; [|exact (Hp H)]. destruct (n_right a) as [rr|]; [|exact (Hp H)].
  clear Hp. unfold create_inode in H. destruct ok; [|injection H as <- <-; exact HG].
  destruct (alloc t _) as [i t1] eqn:Ea. destruct HG as (L & Hn & HG).
  pose proof (G_alloc _ _ (Node (Some l) (Some rr) None None (n_key a)) HG) as A. rewrite Ea in A. cbn [snd] in A.
  assert (i = t_next t) by (injection Ea as <- _; reflexivity). subst i. clear Ea HG.
  repeat inv H. injection H as <- <-. chase. apply Gn_del. exists L. split; [exact Hn|]. apply G_add. eapply G_same; eauto.
Qed.

Lemma clean_G : forall t L, G t L -> G (rtrie_clean t) L.
Proof.
  intros t L (H1 & H2 & H3). unfold G, live, rtrie_clean; cbn [t_list t_heap t_next app].
  split; [|split].
  - revert H1. generalize (t_list t). intros l. induction l as [|x l IH]; cbn [app]; [auto|]. intros N. inversion N; auto.
  - intros q. destruct (existsb (Nat.eqb q) (t_list t)) eqn:E.
    + split; [congruence|]. intros Hq. exfalso. apply existsb_exists in E. destruct E as (x & Hx & Ex). apply Nat.eqb_eq in Ex. subst x.
      revert H1 Hx Hq. generalize (t_list t). intros l. induction l as [|x l IH]; cbn [app In]; [tauto|].
      intros N [->|Hx] Hq; inversion N as [|? ? N1 N2]; subst.
      * apply N1. apply in_or_app. auto.
      * auto.
    + rewrite (H2 q : _ <> None <-> _), in_app_iff. split; [|tauto]. intros [Hq|Hq]; [|exact Hq]. exfalso.
      assert (existsb (Nat.eqb q) (t_list t) = true); [|congruence]. apply existsb_exists. exists q. split; [exact Hq|apply Nat.eqb_refl].
  - intros q Hq. apply H3. apply in_or_app. auto.
Qed.

Lemma flush_G : forall t n, Gn t n -> Gn (rtrie_flush t) n.
Proof.
  intros t n (L & Hn & HG). exists L. split; [exact Hn|]. unfold rtrie_flush. destruct (t_root t); [|exact HG].
  exact (clean_G t L HG).
Qed.

Lemma init_G : Gn (@rtrie_init V) 0.
Proof.
  exists []. split; [apply le_n|]. unfold G, live; cbn [t_list t_heap t_next rtrie_init app In].
  split; [constructor|]. split; [|tauto]. intros q. split; [congruence|tauto].
Qed.

Lemma step_G : forall t o r t' n, Gn t n -> trie_step t o = Ok (r, t') -> Gn t' (n + if failed_add o r then 1 else 0).
Proof.
  intros t [ok1 ok2 k v|ok k|] r t' n HG H; cbn [trie_step] in H.
  - eapply rtrie_add_G; eauto.
  - cbn [failed_add]. rewrite Nat.add_0_r. eapply rtrie_rm_G; eauto.
  - injection H as <- <-. cbn [failed_add]. rewrite Nat.add_0_r. apply flush_G. exact HG.
Qed.

Lemma run_G : forall ops t rs t' n, Gn t n -> trie_run t ops = Ok (rs, t') -> Gn t' (n + failed_adds ops rs).
Proof.
  induction ops as [|o ops IH]; intros t rs t' n HG H; cbn [trie_run] in H.
  - injection H as <- <-. cbn [failed_adds]. rewrite Nat.add_0_r. exact HG.
  - inv H. inv H. injection H as <- <-. destruct a as [r t1]. destruct a0 as [rs t2]. cbn [fst snd failed_adds] in *.
    pose proof (step_G _ _ _ _ _ HG E) as HG1. pose proof (IH _ _ _ _ HG1 E0) as HG2.
    rewrite Nat.add_assoc. exact HG2.
Qed.

End P.
