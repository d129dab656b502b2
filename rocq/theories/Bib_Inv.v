(** The invariant of a BIB table, and what the small steps of [Bib_Model] do to
    it. *)
Require Import Verif.Base Verif.Addr_Model Verif.Rtrie_Model Verif.Pool4_Model Verif.Fsm_Model Verif.Bib_Model
  Verif.Rbtree_Model Verif.Rbtree_Properties.
From Coq Require Import Sorting.Sorted.
Local Ltac Zify.zify_post_hook ::= idtac.

(** ** Invariant *)
Definition key6 (t : tb) (i : Z) : ta := match bibs t i with Some b => b_src6 b | None => (0, 0) end.
Definition key4 (t : tb) (i : Z) : ta := match bibs t i with Some b => b_src4 b | None => (0, 0) end.
Definition keys (t : tb) (j : Z) : ta := match sess t j with Some s => s_dst4 s | None => (0, 0) end.
Definition srt (key : Z -> ta) (l : list Z) : Prop := StronglySorted (fun i j => lt_ta (key i) (key j)) l.
Definition linked (t : tb) : list Z := l_est t ++ l_trans t ++ l_syn4 t.

(** [D]: entries taken out of the trees but not freed yet. *)
Record inv (D : list Z) (t : tb) : Prop := Inv {
  i6 : srt (key6 t) (tree6 t);
  i4 : srt (key4 t) (tree4 t);
  in6 : forall i, In i (tree6 t) <-> bibs t i <> None /\ ~ In i D;
  in4 : forall i, In i (tree4 t) <-> bibs t i <> None /\ ~ In i D;
  idn : NoDup D;
  idl : forall i, In i D -> bibs t i <> None;
  isr : forall i b, bibs t i = Some b -> srt (keys t) (b_sess b);
  ibs : forall i b, bibs t i = Some b -> forall j, In j (b_sess b) <-> exists s, sess t j = Some s /\ s_bib s = i;
  isb : forall j s, sess t j = Some s -> bibs t (s_bib s) <> None;
  iln : forall k, NoDup (list_of t k);
  ill : forall k j, In j (list_of t k) <-> exists s, sess t j = Some s /\ s_exp s = k /\ ~ In (s_bib s) D;
  inb : n_bibs t = Z.of_nat (length (tree4 t));
  ins : n_sess t = Z.of_nat (length (linked t));
  ifb : forall i, bibs t i <> None -> i < fresh t;
  ifs : forall i, sess t i <> None -> i < fresh t;
  iqn : NoDup (map q_dst6 (queue t)) }.

(** A dynamic entry in the tables has a session. *)
Definition dyn (t : tb) : Prop := forall i b, In i (tree4 t) -> bibs t i = Some b -> b_static b = false -> b_sess b <> [].

(** ** Stored packets *)
Fixpoint sumz {A} (f : A -> Z) (l : list A) : Z := match l with [] => 0 | x :: l' => f x + sumz f l' end.
Definition ws (g : Z -> Z) (t : tb) (j : Z) : Z :=
  match sess t j with Some s => match s_stored s with Some k => g k | None => 0 end | None => 0 end.
Definition wl (g : Z -> Z) (t : tb) : Z := sumz (ws g t) (linked t).
Definition wq (g : Z -> Z) (t : tb) : Z := sumz (fun n => g (q_skb n)) (queue t).
Definition wb (g : Z -> Z) (t : tb) (i : Z) : Z := match bibs t i with Some b => sumz (ws g t) (b_sess b) | None => 0 end.
Definition wd (g : Z -> Z) (D : list Z) (t : tb) : Z := sumz (wb g t) D.
Definition we (g : Z -> Z) (e : ev) : Z := match e with EvKill k | EvIcmp k => g k | EvProbe _ _ => 0 end.
Definition one (_ : Z) : Z := 1.

(** Every packet is either still held or has been released, once; and the
    counter follows. *)
Definition acct (D : list Z) (t : tb) (D' : list Z) (t' : tb) (evs : list ev) : Prop :=
  (forall g, wl g t + wq g t + wd g D t = wl g t' + wq g t' + wd g D' t' + sumz (we g) evs) /\
  pkts t - wl one t - wq one t = pkts t' - wl one t' - wq one t'.

(** ** Lists *)
Lemma sumz_app : forall A (f : A -> Z) l r, sumz f (l ++ r) = sumz f l + sumz f r.
Proof. induction l; intros; cbn [app sumz]; [reflexivity|]. rewrite IHl. lia. Qed.
Lemma sumz_ext : forall A (f g : A -> Z) l, (forall x, In x l -> f x = g x) -> sumz f l = sumz g l.
Proof. induction l; intros H; cbn [sumz]; [reflexivity|]. rewrite IHl by (intros; apply H; right; assumption). rewrite (H a) by (left; reflexivity). reflexivity. Qed.
Lemma sumz_nonneg : forall A (f : A -> Z) l, (forall x, 0 <= f x) -> 0 <= sumz f l.
Proof. induction l; intros H; cbn [sumz]; [lia|]. specialize (IHl H). specialize (H a). lia. Qed.
Lemma remove_in : forall i j l, In j (remove_id i l) <-> In j l /\ j <> i.
Proof. intros. unfold remove_id. rewrite filter_In. rewrite negb_true_iff, Z.eqb_neq. reflexivity. Qed.
Lemma remove_notin : forall i l, ~ In i l -> remove_id i l = l.
Proof.
  induction l as [|j l IH]; intros H; cbn [remove_id filter]; [reflexivity|]. cbn [In] in H. destruct (j =? i) eqn:E; [lia|].
  cbn [negb]. f_equal. apply IH. tauto.
Qed.
Lemma remove_app : forall i l r, remove_id i (l ++ r) = remove_id i l ++ remove_id i r.
Proof. intros. apply filter_app. Qed.
Lemma remove_nodup : forall i l, NoDup l -> NoDup (remove_id i l).
Proof. intros. apply NoDup_filter. assumption. Qed.
Lemma remove_split : forall i l, In i l -> NoDup l -> exists a b, l = a ++ i :: b /\ remove_id i l = a ++ b /\ ~ In i a /\ ~ In i b.
Proof.
  intros i l Hi Hn. destruct (in_split _ _ Hi) as (a & b & ->). exists a, b. split; [reflexivity|].
  destruct (nodup_split _ _ _ Hn) as (_ & H1 & H2). split; [|auto]. rewrite remove_app. cbn [remove_id filter]. rewrite Z.eqb_refl. cbn [negb].
  fold (remove_id i b). rewrite !remove_notin by assumption. reflexivity.
Qed.
Lemma sumz_remove : forall f i l, NoDup l -> In i l -> sumz f (remove_id i l) = sumz f l - f i.
Proof.
  intros f i l Hn Hi. destruct (remove_split _ _ Hi Hn) as (a & b & -> & -> & _). rewrite !sumz_app. cbn [sumz]. lia.
Qed.
Lemma length_sum : forall A (l : list A), Z.of_nat (length l) = sumz (fun _ => 1) l.
Proof. induction l; cbn [length sumz]; [reflexivity|]. lia. Qed.
Lemma insert_in : forall n i l j, In j (insert_at n i l) <-> j = i \/ In j l.
Proof.
  intros. unfold insert_at. rewrite <- (firstn_skipn n l) at 3. rewrite !in_app_iff. cbn [In]. intuition congruence.
Qed.
Lemma insert_sum : forall f n i l, sumz f (insert_at n i l) = f i + sumz f l.
Proof. intros. unfold insert_at. rewrite <- (firstn_skipn n l) at 3. rewrite !sumz_app. cbn [sumz]. lia. Qed.
Lemma insert_nodup : forall n i l, NoDup l -> ~ In i l -> NoDup (insert_at n i l).
Proof.
  intros n i l H1 H2. unfold insert_at. rewrite <- (firstn_skipn n l) in H1, H2.
  apply NoDup_Add with (1 := Add_app i (firstn n l) (skipn n l)). auto.
Qed.
Lemma insert_length : forall n i (l : list Z), length (insert_at n i l) = S (length l).
Proof. intros. unfold insert_at. rewrite <- (firstn_skipn n l) at 3. rewrite !app_length. cbn [length]. lia. Qed.
Lemma insert_end : forall i (l : list Z), insert_at (length l) i l = l ++ [i].
Proof. intros. unfold insert_at. rewrite firstn_all, skipn_all. reflexivity. Qed.
Lemma mem_in : forall i l, mem_id i l = true <-> In i l.
Proof. intros. unfold mem_id. rewrite existsb_exists. split; [intros (x & H & E); apply Z.eqb_eq in E; subst; exact H|intros H; exists i; split; [exact H|apply Z.eqb_refl]]. Qed.
Lemma erase_ok : forall i l, In i l -> erase i l = Ok (remove_id i l).
Proof. intros. unfold erase. rewrite (proj2 (mem_in i l) H). reflexivity. Qed.

(** ** Sorted lists *)
Lemma srt_nodup : forall key l, srt key l -> NoDup l.
Proof. intros. eapply ordered_nodup. exact H. Qed.
Lemma srt_ext : forall key key' l, (forall i, In i l -> key i = key' i) -> srt key l -> srt key' l.
Proof.
  intros key key' l H S. induction S as [|i l S IH F]; constructor.
  - apply IH. intros. apply H. right. assumption.
  - rewrite Forall_forall in *. intros j Hj. rewrite <- (H i), <- (H j) by (auto with datatypes). apply F. exact Hj.
Qed.
Lemma srt_filter : forall key f l, srt key l -> srt key (filter f l).
Proof.
  intros key f l S. induction S as [|i l S IH F]; cbn [filter]; [constructor|]. destruct (f i); [|exact IH]. constructor; [exact IH|].
  rewrite Forall_forall in *. intros j Hj. apply filter_In in Hj. apply F. apply Hj.
Qed.
Lemma srt_remove : forall key i l, srt key l -> srt key (remove_id i l).
Proof. intros. apply srt_filter. assumption. Qed.
Lemma srt_app : forall key l r, srt key l -> srt key r -> (forall i j, In i l -> In j r -> lt_ta (key i) (key j)) -> srt key (l ++ r).
Proof.
  intros key l r S R H. induction S as [|i l S IH F]; cbn [app]; [exact R|]. constructor.
  - apply IH. intros. apply H; [right|]; assumption.
  - rewrite Forall_forall in *. intros j Hj. apply in_app_or in Hj. destruct Hj as [Hj|Hj]; [apply F; exact Hj|apply H; [left; reflexivity|exact Hj]].
Qed.
Lemma srt_parts : forall key l r, srt key (l ++ r) -> srt key l /\ srt key r /\ (forall i j, In i l -> In j r -> lt_ta (key i) (key j)).
Proof.
  intros key l. induction l as [|x l IH]; intros r S; cbn [app] in S; [split; [constructor|split; [exact S|intros i j []]]|].
  apply StronglySorted_inv in S. destruct S as [S F]. destruct (IH _ S) as (I1 & I2 & I3). rewrite Forall_forall in F.
  split; [constructor; [exact I1|]|split; [exact I2|]].
  - rewrite Forall_forall. intros j Hj. apply F. apply in_or_app. left. exact Hj.
  - intros i j [<-|Hi] Hj; [apply F; apply in_or_app; right; exact Hj|apply I3; assumption].
Qed.
Lemma srt_insert : forall key k i l n, srt key l -> belongs key k l n -> key i = k -> srt key (insert_at n i l).
Proof.
  intros key k i l n S (B1 & B2 & B3) E. unfold insert_at. rewrite <- (firstn_skipn n l) in S. apply srt_parts in S.
  destruct S as (S1 & S2 & S3). apply srt_app; [exact S1| |].
  - constructor; [exact S2|]. rewrite Forall_forall. intros j Hj. rewrite E. apply B3. exact Hj.
  - intros a b Ha [<-|Hb]; [rewrite E; apply B2; exact Ha|apply S3; assumption].
Qed.
Lemma srt_inj : forall key l i j, srt key l -> In i l -> In j l -> key i = key j -> i = j.
Proof.
  intros key l i j S Hi Hj E. induction S as [|x l S IH F]; [destruct Hi|]. rewrite Forall_forall in F.
  destruct Hi as [<-|Hi], Hj as [<-|Hj]; [reflexivity| | |apply IH; assumption].
  - specialize (F _ Hj). rewrite E in F. destruct (lt_ta_irr _ F).
  - specialize (F _ Hi). rewrite E in F. destruct (lt_ta_irr _ F).
Qed.
Lemma belongs_ext : forall key key' k l n, (forall i, In i l -> key i = key' i) -> belongs key k l n -> belongs key' k l n.
Proof.
  intros key key' k l n H (B1 & B2 & B3). split; [exact B1|]. split; intros i Hi.
  - rewrite <- H; [apply B2; exact Hi|]. rewrite <- (firstn_skipn n l). apply in_or_app. left. exact Hi.
  - rewrite <- H; [apply B3; exact Hi|]. rewrite <- (firstn_skipn n l). apply in_or_app. right. exact Hi.
Qed.

(** A search over a sorted list finds the node with the key, or its place. *)
Definition hit (key : Z -> ta) (k : ta) (l : list Z) (r : option Z * nat) : Prop :=
  match r with
  | (Some i, n) => nth_error l n = Some i /\ key i = k
  | (None, n) => belongs key k l n
  end.
Lemma hit_cons : forall key k i l r, lt_ta (key i) k -> hit key k l r -> hit key k (i :: l) (fst r, S (snd r)).
Proof.
  intros key k i l [[j|] n] H; cbn [hit fst snd].
  - auto.
  - intros (B1 & B2 & B3). split; [cbn [length]; lia|]. cbn [firstn skipn]. split; [|exact B3]. intros x [<-|Hx]; [exact H|apply B2; exact Hx].
Qed.
Lemma belongs_0 : forall key k i l, srt key (i :: l) -> lt_ta k (key i) -> belongs key k (i :: l) 0.
Proof.
  intros key k i l S H. apply StronglySorted_inv in S. destruct S as [_ F]. rewrite Forall_forall in F.
  split; [lia|]. split; [intros x []|]. intros x [<-|Hx]; [exact H|eapply lt_ta_trans; [exact H|apply F; exact Hx]].
Qed.

Lemma search6_ok : forall t k l m, srt (key6 t) l -> (forall i, In i l -> bibs t i <> None) ->
  exists o n, search6 t k l m = Ok (o, (m + n)%nat) /\ hit (key6 t) k l (o, n).
Proof.
  intros t k. induction l as [|i l IH]; intros m Hs Hl; cbn [search6].
  - exists None, 0%nat. rewrite Nat.add_0_r. split; [reflexivity|]. split; [apply le_n|]. split; intros x [].
  - assert (Hi : bibs t i <> None) by (apply Hl; left; reflexivity). unfold getb. destruct (bibs t i) as [b|] eqn:E; [|congruence]. cbn [bind].
    assert (Ek : key6 t i = b_src6 b) by (unfold key6; rewrite E; reflexivity).
    destruct (ta_cmp (b_src6 b) k) eqn:Ec.
    + apply ta_cmp_eq in Ec. exists (Some i), 0%nat. rewrite Nat.add_0_r. split; [reflexivity|]. split; [reflexivity|congruence].
    + apply ta_cmp_lt in Ec. destruct (IH (S m)) as (o & n & H1 & H2); [eapply StronglySorted_inv; exact Hs|intros; apply Hl; right; assumption|].
      exists o, (S n). split; [rewrite H1; do 2 f_equal; lia|]. change (o, S n) with (fst (o, n), S (snd (o, n))). apply hit_cons; [congruence|exact H2].
    + apply ta_cmp_gt in Ec. exists None, 0%nat. rewrite Nat.add_0_r. split; [reflexivity|]. apply belongs_0; [exact Hs|congruence].
Qed.
Lemma search4_ok : forall t k l m, srt (key4 t) l -> (forall i, In i l -> bibs t i <> None) ->
  exists o n, search4 t k l m = Ok (o, (m + n)%nat) /\ hit (key4 t) k l (o, n).
Proof.
  intros t k. induction l as [|i l IH]; intros m Hs Hl; cbn [search4].
  - exists None, 0%nat. rewrite Nat.add_0_r. split; [reflexivity|]. split; [apply le_n|]. split; intros x [].
  - assert (Hi : bibs t i <> None) by (apply Hl; left; reflexivity). unfold getb. destruct (bibs t i) as [b|] eqn:E; [|congruence]. cbn [bind].
    assert (Ek : key4 t i = b_src4 b) by (unfold key4; rewrite E; reflexivity).
    destruct (ta_cmp (b_src4 b) k) eqn:Ec.
    + apply ta_cmp_eq in Ec. exists (Some i), 0%nat. rewrite Nat.add_0_r. split; [reflexivity|]. split; [reflexivity|congruence].
    + apply ta_cmp_lt in Ec. destruct (IH (S m)) as (o & n & H1 & H2); [eapply StronglySorted_inv; exact Hs|intros; apply Hl; right; assumption|].
      exists o, (S n). split; [rewrite H1; do 2 f_equal; lia|]. change (o, S n) with (fst (o, n), S (snd (o, n))). apply hit_cons; [congruence|exact H2].
    + apply ta_cmp_gt in Ec. exists None, 0%nat. rewrite Nat.add_0_r. split; [reflexivity|]. apply belongs_0; [exact Hs|congruence].
Qed.
Lemma search_sess_ok : forall t k l m, srt (keys t) l -> (forall i, In i l -> sess t i <> None) ->
  exists o n, search_sess t k l m = Ok (o, (m + n)%nat) /\ hit (keys t) k l (o, n).
Proof.
  intros t k. induction l as [|i l IH]; intros m Hs Hl; cbn [search_sess].
  - exists None, 0%nat. rewrite Nat.add_0_r. split; [reflexivity|]. split; [apply le_n|]. split; intros x [].
  - assert (Hi : sess t i <> None) by (apply Hl; left; reflexivity). unfold gets. destruct (sess t i) as [b|] eqn:E; [|congruence]. cbn [bind].
    assert (Ek : keys t i = s_dst4 b) by (unfold keys; rewrite E; reflexivity).
    destruct (ta_cmp (s_dst4 b) k) eqn:Ec.
    + apply ta_cmp_eq in Ec. exists (Some i), 0%nat. rewrite Nat.add_0_r. split; [reflexivity|]. split; [reflexivity|congruence].
    + apply ta_cmp_lt in Ec. destruct (IH (S m)) as (o & n & H1 & H2); [eapply StronglySorted_inv; exact Hs|intros; apply Hl; right; assumption|].
      exists o, (S n). split; [rewrite H1; do 2 f_equal; lia|]. change (o, S n) with (fst (o, n), S (snd (o, n))). apply hit_cons; [congruence|exact H2].
    + apply ta_cmp_gt in Ec. exists None, 0%nat. rewrite Nat.add_0_r. split; [reflexivity|]. apply belongs_0; [exact Hs|congruence].
Qed.
Lemma same_remote_ok : forall t a l, (forall i, In i l -> sess t i <> None) ->
  exists r, same_remote t a l = Ok r /\ (r = true <-> exists i s, In i l /\ sess t i = Some s /\ fst (s_dst4 s) = a).
Proof.
  intros t a. induction l as [|i l IH]; intros Hl; cbn [same_remote].
  - exists false. split; [reflexivity|]. split; [discriminate|intros (? & ? & [] & _)].
  - assert (Hi : sess t i <> None) by (apply Hl; left; reflexivity). unfold gets. destruct (sess t i) as [s|] eqn:E; [|congruence]. cbn [bind].
    destruct IH as (r & -> & Hr); [intros; apply Hl; right; assumption|]. cbn [bind]. eexists. split; [reflexivity|].
    rewrite orb_true_iff, Hr, Z.eqb_eq. split.
    + intros [H|(j & s' & H1 & H2)]; [exists i, s; cbn [In]; auto|exists j, s'; cbn [In]; tauto].
    + intros (j & s' & [<-|H1] & H2 & H3); [left; congruence|right; eauto].
Qed.

Lemma find6 : forall D t k, inv D t -> exists o n, find_bibtree6_slot t k = Ok (o, n) /\ hit (key6 t) k (tree6 t) (o, n).
Proof.
  intros D t k I. destruct (search6_ok t k (tree6 t) 0 (i6 _ _ I)) as (o & n & H1 & H2); [intros i Hi; apply (in6 _ _ I) in Hi; tauto|].
  exists o, n. auto.
Qed.
Lemma find4 : forall D t k, inv D t -> exists o n, find_bibtree4_slot t k = Ok (o, n) /\ hit (key4 t) k (tree4 t) (o, n).
Proof.
  intros D t k I. destruct (search4_ok t k (tree4 t) 0 (i4 _ _ I)) as (o & n & H1 & H2); [intros i Hi; apply (in4 _ _ I) in Hi; tauto|].
  exists o, n. auto.
Qed.
Lemma finds : forall D t bid b k, inv D t -> bibs t bid = Some b ->
  exists o n a, find_session_slot t bid k = Ok (o, n, a) /\ hit (keys t) k (b_sess b) (o, n) /\
    (a = true <-> exists j s, sess t j = Some s /\ s_bib s = bid /\ fst (s_dst4 s) = fst k).
Proof.
  intros D t bid b k I Hb. unfold find_session_slot, getb. rewrite Hb. cbn [bind].
  assert (Hl : forall j, In j (b_sess b) -> sess t j <> None) by (intros j Hj; apply (ibs _ _ I _ _ Hb) in Hj; destruct Hj as (s & -> & _); discriminate).
  destruct (search_sess_ok t k (b_sess b) 0 (isr _ _ I _ _ Hb) Hl) as (o & n & H1 & H2). rewrite H1. cbn [bind fst snd].
  destruct (same_remote_ok t (fst k) (b_sess b) Hl) as (a & H3 & H4). rewrite H3. cbn [bind]. exists o, n, a. split; [reflexivity|]. split; [exact H2|].
  rewrite H4. split.
  - intros (j & s & Hj & Hs & E). apply (ibs _ _ I _ _ Hb) in Hj. destruct Hj as (s' & Hs' & Eb). exists j, s. assert (s' = s) by congruence. subst. auto.
  - intros (j & s & Hs & Eb & E). exists j, s. split; [apply (ibs _ _ I _ _ Hb); eauto|auto].
Qed.

(** ** Updates of the heap *)
Lemma upd_eq : forall A (h : Z -> option A) k v, upd h k v k = v.
Proof. intros. unfold upd. rewrite Z.eqb_refl. reflexivity. Qed.
Lemma upd_neq : forall A (h : Z -> option A) k v j, j <> k -> upd h k v j = h j.
Proof. intros. unfold upd. destruct (j =? k) eqn:E; [lia|reflexivity]. Qed.
Lemma upd_cases : forall A (h : Z -> option A) k v j x, upd h k v j = Some x -> (j = k /\ v = Some x) \/ (j <> k /\ h j = Some x).
Proof. intros A h k v j x H. unfold upd in H. destruct (j =? k) eqn:E; [left|right]; split; auto; lia. Qed.

Ltac simp := cbn [bibs sess tree6 tree4 l_est l_trans l_syn4 pkts queue n_bibs n_sess fresh
  set_bibs set_sess set_trees set_lists set_pkts set_queue set_stats set_fresh put_bib put_sess with_sess
  b_src6 b_src4 b_static b_sess s_dst6 s_dst4 s_state s_bib s_time s_exp s_stored set_stored set_timer set_cb] in *.

Lemma list_set : forall t k l k', k <> T_BAD -> list_of (set_list t k l) k' = if match k, k' with T_EST, T_EST | T_TRANS, T_TRANS | T_SYN4, T_SYN4 => true | _, _ => false end then l else list_of t k'.
Proof. intros t k l k' H. destruct k, k'; try congruence; reflexivity. Qed.
Lemma list_put : forall t i s k, list_of (put_sess t i s) k = list_of t k.
Proof. intros. destruct k; reflexivity. Qed.
Lemma list_unlink : forall t i k, list_of (unlink t i) k = remove_id i (list_of t k).
Proof. intros. destruct k; reflexivity. Qed.
Lemma set_list_fields : forall t k l, bibs (set_list t k l) = bibs t /\ sess (set_list t k l) = sess t /\ tree6 (set_list t k l) = tree6 t /\
  tree4 (set_list t k l) = tree4 t /\ pkts (set_list t k l) = pkts t /\ queue (set_list t k l) = queue t /\
  n_bibs (set_list t k l) = n_bibs t /\ n_sess (set_list t k l) = n_sess t /\ fresh (set_list t k l) = fresh t.
Proof. intros. destruct k; repeat split. Qed.
Lemma linked_set : forall f t k l, k <> T_BAD -> sumz f (linked (set_list t k l)) = sumz f (linked t) - sumz f (list_of t k) + sumz f l.
Proof. intros f t k l H. unfold linked. destruct k; [..|congruence]; cbn [set_list list_of]; simp; rewrite !sumz_app; lia. Qed.
Lemma linked_unlink : forall f t i k, (forall k, NoDup (list_of t k)) -> In i (list_of t k) -> (forall k', k' <> k -> ~ In i (list_of t k')) ->
  sumz f (linked (unlink t i)) = sumz f (linked t) - f i.
Proof.
  intros f t i k Hn Hi Ho. unfold linked, unlink. simp. rewrite !sumz_app.
  pose proof (Hn T_EST) as N1. pose proof (Hn T_TRANS) as N2. pose proof (Hn T_SYN4) as N3. cbn [list_of] in N1, N2, N3.
  destruct k; cbn [list_of] in Hi; [| | |destruct Hi].
  - rewrite (sumz_remove _ _ _ N1 Hi). rewrite (remove_notin i (l_trans t)) by (apply (Ho T_TRANS); discriminate). rewrite (remove_notin i (l_syn4 t)) by (apply (Ho T_SYN4); discriminate). lia.
  - rewrite (sumz_remove _ _ _ N2 Hi). rewrite (remove_notin i (l_est t)) by (apply (Ho T_EST); discriminate). rewrite (remove_notin i (l_syn4 t)) by (apply (Ho T_SYN4); discriminate). lia.
  - rewrite (sumz_remove _ _ _ N3 Hi). rewrite (remove_notin i (l_trans t)) by (apply (Ho T_TRANS); discriminate). rewrite (remove_notin i (l_est t)) by (apply (Ho T_EST); discriminate). lia.
Qed.
Lemma in_linked : forall t j, In j (linked t) <-> exists k, In j (list_of t k).
Proof.
  intros. unfold linked. rewrite !in_app_iff. split.
  - intros [H|[H|H]]; [exists T_EST|exists T_TRANS|exists T_SYN4]; exact H.
  - intros [[| | |] H]; cbn [list_of] in H; [tauto..|destruct H].
Qed.
Lemma one_list : forall D t i s, inv D t -> sess t i = Some s -> forall k', k' <> s_exp s -> ~ In i (list_of t k').
Proof. intros D t i s I Hs k' Hk Hi. apply (ill _ _ I) in Hi. destruct Hi as (s' & Hs' & E & _). congruence. Qed.

(** A session's other fields. *)
Lemma inv_put_same : forall D t i s s', inv D t -> sess t i = Some s -> s_bib s' = s_bib s -> s_dst4 s' = s_dst4 s -> s_exp s' = s_exp s ->
  inv D (put_sess t i s').
Proof.
  intros D t i s s' I Hs Eb Ed Ee.
  assert (Ek : forall j, keys (put_sess t i s') j = keys t j).
  { intros j. unfold keys. simp. destruct (Z.eq_dec j i) as [->|N]; [rewrite upd_eq, Hs; exact Ed|rewrite upd_neq by exact N; reflexivity]. }
  assert (Ex : forall j (P : Z -> timer -> Prop), (exists x, sess (put_sess t i s') j = Some x /\ P (s_bib x) (s_exp x)) <-> (exists x, sess t j = Some x /\ P (s_bib x) (s_exp x))).
  { intros j P. simp. destruct (Z.eq_dec j i) as [->|N]; [rewrite upd_eq, Hs|rewrite upd_neq by exact N; reflexivity].
    split; intros (x & [= <-] & H); eexists; (split; [reflexivity|]); congruence. }
  destruct I as [J1 J2 J3 J4 J5 J6 J7 J8 J9 J10 J11 J12 J13 J14 J15 J16].
  constructor; try assumption.
  - intros j b Hb. eapply srt_ext; [|apply (J7 _ _ Hb)]. intros; symmetry; apply Ek.
  - intros j b Hb x. rewrite (J8 _ _ Hb). symmetry. apply (Ex x (fun a _ => a = j)).
  - intros j x H. destruct (proj1 (Ex j (fun a _ => a = s_bib x))) as (y & Hy & E); [exists x; auto|]. rewrite <- E. apply (J9 _ _ Hy).
  - intros k j. rewrite list_put, J11. symmetry. apply (Ex j (fun a e => e = k /\ ~ In a D)).
  - intros j H. simp. destruct (Z.eq_dec j i) as [->|N]; [apply J15; congruence|]. rewrite upd_neq in H by exact N. apply J15. exact H.
Qed.

Lemma ws_put : forall g t i s, ws g (put_sess t i s) i = match s_stored s with Some k => g k | None => 0 end.
Proof. intros. unfold ws. simp. rewrite upd_eq. reflexivity. Qed.
Lemma ws_put_neq : forall g t i s j, j <> i -> ws g (put_sess t i s) j = ws g t j.
Proof. intros. unfold ws. simp. rewrite upd_neq by assumption. reflexivity. Qed.

(** A session moves to a place of another list (or of the same). *)
Lemma inv_relist : forall D t i s s' k n, inv D t -> sess t i = Some s -> ~ In (s_bib s) D ->
  s_bib s' = s_bib s -> s_dst4 s' = s_dst4 s -> s_exp s' = k -> k <> T_BAD ->
  inv D (put_sess (set_list (unlink t i) k (insert_at n i (remove_id i (list_of t k)))) i s').
Proof.
  intros D t i s s' k n I Hs HD Eb Ed Ee Hk.
  set (t1 := set_list (unlink t i) k (insert_at n i (remove_id i (list_of t k)))).
  destruct (set_list_fields (unlink t i) k (insert_at n i (remove_id i (list_of t k)))) as (F1 & F2 & F3 & F4 & F5 & F6 & F7 & F8 & F9). fold t1 in F1, F2, F3, F4, F5, F6, F7, F8, F9.
  unfold unlink in F1, F2, F3, F4, F5, F6, F7, F8, F9. simp.
  pose proof (one_list _ _ _ _ I Hs) as Ho. pose proof (iln _ _ I) as Hln.
  assert (Hin : In i (list_of t (s_exp s))) by (apply (ill _ _ I); eauto).
  assert (Ek : forall j, keys (put_sess t1 i s') j = keys t j).
  { intros j. unfold keys. simp. rewrite F2. destruct (Z.eq_dec j i) as [->|N]; [rewrite upd_eq, Hs; exact Ed|rewrite upd_neq by exact N; reflexivity]. }
  assert (Eb' : forall j (P : Z -> Prop), (exists x, sess (put_sess t1 i s') j = Some x /\ P (s_bib x)) <-> (exists x, sess t j = Some x /\ P (s_bib x))).
  { intros j P. simp. rewrite F2. destruct (Z.eq_dec j i) as [->|N]; [rewrite upd_eq, Hs|rewrite upd_neq by exact N; reflexivity].
    split; intros (x & [= <-] & H); eexists; (split; [reflexivity|]); congruence. }
  assert (Hlist : forall k', list_of (put_sess t1 i s') k' = if match k, k' with T_EST, T_EST | T_TRANS, T_TRANS | T_SYN4, T_SYN4 => true | _, _ => false end then insert_at n i (remove_id i (list_of t k)) else remove_id i (list_of t k')).
  { intros k'. rewrite list_put. unfold t1. rewrite list_set by exact Hk. rewrite list_unlink. reflexivity. }
  assert (Hkk : forall k', (match k, k' with T_EST, T_EST | T_TRANS, T_TRANS | T_SYN4, T_SYN4 => true | _, _ => false end) = true <-> k' = k).
  { intros k'. destruct k, k'; split; intros; congruence. }
  destruct I as [J1 J2 J3 J4 J5 J6 J7 J8 J9 J10 J11 J12 J13 J14 J15 J16].
  constructor.
  - simp. rewrite F3. eapply srt_ext; [|exact J1]. intros. unfold key6. simp. rewrite F1. reflexivity.
  - simp. rewrite F4. eapply srt_ext; [|exact J2]. intros. unfold key4. simp. rewrite F1. reflexivity.
  - simp. rewrite F1, F3. exact J3.
  - simp. rewrite F1, F4. exact J4.
  - exact J5.
  - simp. rewrite F1. exact J6.
  - intros j b Hb. simp. rewrite F1 in Hb. eapply srt_ext; [|apply (J7 _ _ Hb)]. intros; symmetry; apply Ek.
  - intros j b Hb x. simp. rewrite F1 in Hb. rewrite (J8 _ _ Hb). symmetry. apply (Eb' x (fun a => a = j)).
  - intros j x H. destruct (proj1 (Eb' j (fun a => a = s_bib x))) as (y & Hy & E); [exists x; auto|]. simp. rewrite F1, <- E. apply (J9 _ _ Hy).
  - intros k'. rewrite Hlist. destruct (match k, k' with T_EST, T_EST | T_TRANS, T_TRANS | T_SYN4, T_SYN4 => true | _, _ => false end).
    + apply insert_nodup; [apply remove_nodup; apply J10|]. rewrite remove_in. intros [_ C]. apply C. reflexivity.
    + apply remove_nodup. apply J10.
  - intros k' j. rewrite Hlist. simp. rewrite F2. destruct (Z.eq_dec j i) as [->|N].
    + rewrite upd_eq. destruct (match k, k' with T_EST, T_EST | T_TRANS, T_TRANS | T_SYN4, T_SYN4 => true | _, _ => false end) eqn:E.
      * apply Hkk in E. rewrite insert_in. split; [|auto]. intros _. exists s'. rewrite Eb. subst; auto.
      * rewrite remove_in. split; [tauto|]. intros (x & [= <-] & E1 & _). exfalso. assert (k' = k) by congruence. apply Hkk in H. congruence.
    + rewrite upd_neq by exact N. rewrite <- J11. destruct (match k, k' with T_EST, T_EST | T_TRANS, T_TRANS | T_SYN4, T_SYN4 => true | _, _ => false end) eqn:E.
      * apply Hkk in E. subst k'. rewrite insert_in, remove_in. tauto.
      * rewrite remove_in. tauto.
  - simp. rewrite F4, F7. exact J12.
  - simp. rewrite F8. rewrite J13, !length_sum. change (linked (put_sess t1 i s')) with (linked t1). unfold t1. rewrite linked_set by exact Hk.
    rewrite list_unlink, insert_sum. rewrite (linked_unlink _ t i (s_exp s)) by assumption. lia.
  - simp. rewrite F1, F9. exact J14.
  - intros j H. simp. rewrite F9. rewrite F2 in H. destruct (Z.eq_dec j i) as [->|N]; [apply J15; congruence|]. rewrite upd_neq in H by exact N. apply J15. exact H.
  - simp. rewrite F6. exact J16.
Qed.

Lemma inv_fresh : forall D t f, inv D t -> fresh t <= f -> inv D (set_fresh t f).
Proof.
  intros D t f [J1 J2 J3 J4 J5 J6 J7 J8 J9 J10 J11 J12 J13 J14 J15 J16] H. constructor; try assumption.
  - intros i Hi. simp. specialize (J14 _ Hi). lia.
  - intros i Hi. simp. specialize (J15 _ Hi). lia.
Qed.
Lemma inv_queue : forall D t q n, inv D t -> NoDup (map q_dst6 q) -> inv D (set_pkts (set_queue t q) n).
Proof. intros D t q n [J1 J2 J3 J4 J5 J6 J7 J8 J9 J10 J11 J12 J13 J14 J15 J16] H. constructor; assumption. Qed.
Lemma inv_pkts : forall D t n, inv D t -> inv D (set_pkts t n).
Proof. intros D t n [J1 J2 J3 J4 J5 J6 J7 J8 J9 J10 J11 J12 J13 J14 J15 J16]. constructor; assumption. Qed.
Lemma inv_queue' : forall D t q, inv D t -> NoDup (map q_dst6 q) -> inv D (set_queue t q).
Proof. intros D t q [J1 J2 J3 J4 J5 J6 J7 J8 J9 J10 J11 J12 J13 J14 J15 J16] H. constructor; assumption. Qed.

Definition same_timer (k k' : timer) : bool := match k, k' with T_EST, T_EST | T_TRANS, T_TRANS | T_SYN4, T_SYN4 | T_BAD, T_BAD => true | _, _ => false end.
Lemma same_timer_eq : forall k k', same_timer k k' = true <-> k' = k.
Proof. intros [] []; split; intros; try reflexivity; discriminate. Qed.
Lemma list_set' : forall t k l k', k <> T_BAD -> list_of (set_list t k l) k' = if same_timer k k' then l else list_of t k'.
Proof. intros t k l k' H. destruct k, k'; try congruence; reflexivity. Qed.

(** A new session. *)
Definition add_sess (t : tb) (sid : Z) (s : tsess) (b : tbib) (n : nat) : tb :=
  set_stats (put_sess (put_bib t (s_bib s) (with_sess b (insert_at n sid (b_sess b)))) sid s) (n_bibs t) (n_sess t + 1).
Lemma commit_session_eq : forall t sid s b n, bibs t (s_bib s) = Some b -> commit_session t sid s (s_bib s) n = Ok (add_sess t sid s b n).
Proof. intros t sid s b n H. unfold commit_session, getb. rewrite H. reflexivity. Qed.
Lemma inv_new_sess : forall D t sid s b n m, inv D t -> bibs t (s_bib s) = Some b -> ~ In (s_bib s) D -> sess t sid = None -> sid < fresh t ->
  belongs (keys t) (s_dst4 s) (b_sess b) n -> s_exp s <> T_BAD ->
  inv D (set_list (add_sess t sid s b n) (s_exp s) (insert_at m sid (list_of t (s_exp s)))).
Proof.
  intros D t sid s b n m I Hb HD Hs Hf B Hk. set (bid := s_bib s) in *. set (k := s_exp s) in *.
  set (l := insert_at m sid (list_of t k)). set (t1 := add_sess t sid s b n).
  assert (F1 : bibs (set_list t1 k l) = upd (bibs t) bid (Some (with_sess b (insert_at n sid (b_sess b))))) by (destruct k; reflexivity).
  assert (F2 : sess (set_list t1 k l) = upd (sess t) sid (Some s)) by (destruct k; reflexivity).
  assert (F3 : tree6 (set_list t1 k l) = tree6 t) by (destruct k; reflexivity).
  assert (F4 : tree4 (set_list t1 k l) = tree4 t) by (destruct k; reflexivity).
  assert (F6 : queue (set_list t1 k l) = queue t) by (destruct k; reflexivity).
  assert (F7 : n_bibs (set_list t1 k l) = n_bibs t) by (destruct k; reflexivity).
  assert (F8 : n_sess (set_list t1 k l) = n_sess t + 1) by (destruct k; reflexivity).
  assert (F9 : fresh (set_list t1 k l) = fresh t) by (destruct k; reflexivity).
  assert (Hni : forall k, ~ In sid (list_of t k)) by (intros k' H; apply (ill _ _ I) in H; destruct H as (x & H & _); congruence).
  assert (Hnb : forall i x, bibs t i = Some x -> ~ In sid (b_sess x)) by (intros i x Hx H; apply (ibs _ _ I _ _ Hx) in H; destruct H as (y & H & _); congruence).
  assert (Hlist : forall k', list_of (set_list t1 k l) k' = if same_timer k k' then l else list_of t k').
  { intros k'. rewrite list_set' by exact Hk. destruct (same_timer k k'); [reflexivity|]. destruct k'; reflexivity. }
  assert (Eks : forall j, j <> sid -> keys (set_list t1 k l) j = keys t j) by (intros j N; unfold keys; rewrite F2, upd_neq by exact N; reflexivity).
  assert (E6 : forall i, key6 (set_list t1 k l) i = key6 t i).
  { intros i. unfold key6. rewrite F1. destruct (Z.eq_dec i bid) as [->|N]; [rewrite upd_eq, Hb; reflexivity|rewrite upd_neq by exact N; reflexivity]. }
  assert (E4 : forall i, key4 (set_list t1 k l) i = key4 t i).
  { intros i. unfold key4. rewrite F1. destruct (Z.eq_dec i bid) as [->|N]; [rewrite upd_eq, Hb; reflexivity|rewrite upd_neq by exact N; reflexivity]. }
  assert (Hlive : forall i, bibs (set_list t1 k l) i <> None <-> bibs t i <> None).
  { intros i. rewrite F1. destruct (Z.eq_dec i bid) as [->|N]; [rewrite upd_eq, Hb; split; discriminate|rewrite upd_neq by exact N; reflexivity]. }
  destruct I as [J1 J2 J3 J4 J5 J6 J7 J8 J9 J10 J11 J12 J13 J14 J15 J16]. constructor.
  - rewrite F3. eapply srt_ext; [|exact J1]. intros; symmetry; apply E6.
  - rewrite F4. eapply srt_ext; [|exact J2]. intros; symmetry; apply E4.
  - intros i. rewrite F3, J3, Hlive. reflexivity.
  - intros i. rewrite F4, J4, Hlive. reflexivity.
  - exact J5.
  - intros i Hi. apply Hlive. apply J6. exact Hi.
  - intros i x Hx. rewrite F1 in Hx. destruct (Z.eq_dec i bid) as [->|N].
    + rewrite upd_eq in Hx. injection Hx as <-. simp.
      assert (S0 : srt (keys (set_list t1 k l)) (b_sess b)).
      { eapply srt_ext; [|apply (J7 _ _ Hb)]. intros j Hj. symmetry. apply Eks. intros ->. exact (Hnb _ _ Hb Hj). }
      eapply srt_insert with (k := s_dst4 s); [exact S0| |unfold keys; rewrite F2, upd_eq; reflexivity].
      eapply belongs_ext; [|exact B]. intros j Hj. symmetry. apply Eks. intros ->. exact (Hnb _ _ Hb Hj).
    + rewrite upd_neq in Hx by exact N. eapply srt_ext; [|apply (J7 _ _ Hx)]. intros j Hj. symmetry. apply Eks. intros ->. exact (Hnb _ _ Hx Hj).
  - intros i x Hx j. rewrite F1 in Hx. rewrite F2. destruct (Z.eq_dec i bid) as [->|N].
    + rewrite upd_eq in Hx. injection Hx as <-. simp. rewrite insert_in. destruct (Z.eq_dec j sid) as [->|Nj].
      * rewrite upd_eq. split; [|auto]. intros _. exists s. auto.
      * rewrite upd_neq by exact Nj. rewrite (J8 _ _ Hb). tauto.
    + rewrite upd_neq in Hx by exact N. rewrite (J8 _ _ Hx). destruct (Z.eq_dec j sid) as [->|Nj].
      * rewrite upd_eq, Hs. split; [intros (y & [=] & _)|intros (y & [= <-] & E)]. exfalso. apply N. symmetry. exact E.
      * rewrite upd_neq by exact Nj. reflexivity.
  - intros j x Hx. apply Hlive. rewrite F2 in Hx. destruct (upd_cases _ _ _ _ _ _ Hx) as [[-> [= <-]]|[N Hx']]; [fold bid; congruence|apply (J9 _ _ Hx')].
  - intros k'. rewrite Hlist. destruct (same_timer k k'); [|apply J10]. apply insert_nodup; [apply J10|apply Hni].
  - intros k' j. rewrite Hlist, F2. destruct (Z.eq_dec j sid) as [->|N].
    + rewrite upd_eq. destruct (same_timer k k') eqn:E.
      * apply same_timer_eq in E. unfold l. rewrite insert_in. split; [|auto]. intros _. exists s. subst k'. auto.
      * split; [intros H; destruct (Hni _ H)|]. intros (x & [= <-] & E' & _). fold k in E'. symmetry in E'. apply same_timer_eq in E'. congruence.
    + rewrite upd_neq by exact N. rewrite <- J11. destruct (same_timer k k') eqn:E; [|reflexivity].
      apply same_timer_eq in E. subst k'. unfold l. rewrite insert_in. tauto.
  - rewrite F4, F7. exact J12.
  - rewrite F8, J13, !length_sum. rewrite linked_set by exact Hk. unfold l. rewrite insert_sum.
    replace (list_of t1 k) with (list_of t k) by (destruct k; reflexivity). change (linked t1) with (linked t). lia.
  - intros i Hi. rewrite F9. apply J14. apply Hlive. exact Hi.
  - intros i Hi. rewrite F9. rewrite F2 in Hi. destruct (Z.eq_dec i sid) as [->|N]; [exact Hf|]. rewrite upd_neq in Hi by exact N. apply J15. exact Hi.
  - rewrite F6. exact J16.
Qed.

(** A new entry. *)
Lemma inv_new_bib : forall D t i b n6 n4, inv D t -> bibs t i = None -> i < fresh t -> b_sess b = [] ->
  belongs (key6 t) (b_src6 b) (tree6 t) n6 -> belongs (key4 t) (b_src4 b) (tree4 t) n4 ->
  inv D (commit_bib t i b n6 n4).
Proof.
  intros D t i b n6 n4 I Hi Hf Hb B6 B4.
  assert (N6 : forall x, In x (tree6 t) -> x <> i) by (intros x Hx ->; apply (in6 _ _ I) in Hx; tauto).
  assert (N4 : forall x, In x (tree4 t) -> x <> i) by (intros x Hx ->; apply (in4 _ _ I) in Hx; tauto).
  assert (Ei : ~ In i D) by (intros H; apply (idl _ _ I) in H; congruence).
  set (t1 := commit_bib t i b n6 n4).
  assert (E6 : forall x, x <> i -> key6 t1 x = key6 t x) by (intros x N; unfold key6, t1, commit_bib; simp; rewrite upd_neq by exact N; reflexivity).
  assert (E4 : forall x, x <> i -> key4 t1 x = key4 t x) by (intros x N; unfold key4, t1, commit_bib; simp; rewrite upd_neq by exact N; reflexivity).
  assert (Li : forall k, list_of t1 k = list_of t k) by (intros []; reflexivity).
  destruct I as [J1 J2 J3 J4 J5 J6 J7 J8 J9 J10 J11 J12 J13 J14 J15 J16]. constructor.
  - unfold t1, commit_bib; simp. fold t1. apply srt_insert with (k := b_src6 b).
    + eapply srt_ext; [|exact J1]. intros x Hx. symmetry. apply E6. apply N6. exact Hx.
    + eapply belongs_ext; [|exact B6]. intros x Hx. symmetry. apply E6. apply N6. exact Hx.
    + unfold key6, t1, commit_bib. simp. rewrite upd_eq. reflexivity.
  - unfold t1, commit_bib; simp. fold t1. apply srt_insert with (k := b_src4 b).
    + eapply srt_ext; [|exact J2]. intros x Hx. symmetry. apply E4. apply N4. exact Hx.
    + eapply belongs_ext; [|exact B4]. intros x Hx. symmetry. apply E4. apply N4. exact Hx.
    + unfold key4, t1, commit_bib. simp. rewrite upd_eq. reflexivity.
  - intros x. unfold t1, commit_bib; simp. rewrite insert_in. destruct (Z.eq_dec x i) as [->|N].
    + rewrite upd_eq. split; [split; [discriminate|exact Ei]|auto].
    + rewrite upd_neq by exact N. rewrite J3. tauto.
  - intros x. unfold t1, commit_bib; simp. rewrite insert_in. destruct (Z.eq_dec x i) as [->|N].
    + rewrite upd_eq. split; [split; [discriminate|exact Ei]|auto].
    + rewrite upd_neq by exact N. rewrite J4. tauto.
  - exact J5.
  - intros x Hx. unfold t1, commit_bib; simp. rewrite upd_neq by (intros ->; tauto). apply J6. exact Hx.
  - intros x y Hy. change (keys t1) with (keys t). unfold t1, commit_bib in Hy; simp.
    destruct (upd_cases _ _ _ _ _ _ Hy) as [[-> [= <-]]|[N Hy']]; [rewrite Hb; constructor|apply (J7 _ _ Hy')].
  - intros x y Hy j. change (sess t1) with (sess t). unfold t1, commit_bib in Hy; simp.
    destruct (upd_cases _ _ _ _ _ _ Hy) as [[-> [= <-]]|[N Hy']]; [|apply (J8 _ _ Hy')].
    rewrite Hb. split; [intros []|]. intros (s & Hs & E). apply J9 in Hs. rewrite E in Hs. congruence.
  - intros j s Hs. unfold t1, commit_bib; simp. specialize (J9 _ _ Hs). rewrite upd_neq; [exact J9|]. intros E. rewrite E in J9. congruence.
  - intros k. rewrite Li. apply J10.
  - intros k j. rewrite Li. apply J11.
  - unfold t1, commit_bib; simp. rewrite J12, insert_length. lia.
  - exact J13.
  - intros x Hx. unfold t1, commit_bib in *; simp. destruct (Z.eq_dec x i) as [->|N]; [exact Hf|]. rewrite upd_neq in Hx by exact N. apply J14. exact Hx.
  - exact J15.
  - exact J16.
Qed.

(** A session is removed. *)
Definition del_sess (t : tb) (i : Z) (s : tsess) (b : tbib) : tb :=
  set_stats (set_sess (unlink (put_bib t (s_bib s) (with_sess b (remove_id i (b_sess b)))) i) (upd (sess t) i None)) (n_bibs t) (n_sess t - 1).
Lemma inv_del_sess : forall D t i s b, inv D t -> sess t i = Some s -> ~ In (s_bib s) D -> bibs t (s_bib s) = Some b ->
  inv D (del_sess t i s b).
Proof.
  intros D t i s b I Hs HD Hb. set (bid := s_bib s) in *. set (t1 := del_sess t i s b).
  pose proof (one_list _ _ _ _ I Hs) as Ho. pose proof (iln _ _ I) as Hln.
  assert (Hin : In i (list_of t (s_exp s))) by (apply (ill _ _ I); eauto).
  assert (E6 : forall x, key6 t1 x = key6 t x).
  { intros x. unfold key6, t1, del_sess, unlink. simp. fold bid. destruct (Z.eq_dec x bid) as [->|N]; [rewrite upd_eq, Hb; reflexivity|rewrite upd_neq by exact N; reflexivity]. }
  assert (E4 : forall x, key4 t1 x = key4 t x).
  { intros x. unfold key4, t1, del_sess, unlink. simp. fold bid. destruct (Z.eq_dec x bid) as [->|N]; [rewrite upd_eq, Hb; reflexivity|rewrite upd_neq by exact N; reflexivity]. }
  assert (Eks : forall j, j <> i -> keys t1 j = keys t j) by (intros j N; unfold keys, t1, del_sess, unlink; simp; rewrite upd_neq by exact N; reflexivity).
  assert (Hlive : forall x, bibs t1 x <> None <-> bibs t x <> None).
  { intros x. unfold t1, del_sess, unlink. simp. fold bid. destruct (Z.eq_dec x bid) as [->|N]; [rewrite upd_eq, Hb; split; discriminate|rewrite upd_neq by exact N; reflexivity]. }
  assert (Li : forall k, list_of t1 k = remove_id i (list_of t k)) by (intros []; reflexivity).
  assert (Es : forall j x, sess t1 j = Some x <-> sess t j = Some x /\ j <> i).
  { intros j x. unfold t1, del_sess, unlink. simp. destruct (Z.eq_dec j i) as [->|N]; [rewrite upd_eq; split; [discriminate|tauto]|rewrite upd_neq by exact N; tauto]. }
  destruct I as [J1 J2 J3 J4 J5 J6 J7 J8 J9 J10 J11 J12 J13 J14 J15 J16]. constructor.
  - change (tree6 t1) with (tree6 t). eapply srt_ext; [|exact J1]. intros; symmetry; apply E6.
  - change (tree4 t1) with (tree4 t). eapply srt_ext; [|exact J2]. intros; symmetry; apply E4.
  - intros x. change (tree6 t1) with (tree6 t). rewrite J3, Hlive. reflexivity.
  - intros x. change (tree4 t1) with (tree4 t). rewrite J4, Hlive. reflexivity.
  - exact J5.
  - intros x Hx. apply Hlive. apply J6. exact Hx.
  - intros x y Hy. unfold t1, del_sess, unlink in Hy; simp. fold bid in Hy. destruct (upd_cases _ _ _ _ _ _ Hy) as [[-> [= <-]]|[N Hy']]; simp.
    + eapply srt_ext; [|apply srt_remove; apply (J7 _ _ Hb)]. intros j Hj. symmetry. apply Eks. apply remove_in in Hj. apply Hj.
    + eapply srt_ext; [|apply (J7 _ _ Hy')]. intros j Hj. symmetry. apply Eks. intros ->. apply (J8 _ _ Hy') in Hj. destruct Hj as (z & Hz & E). apply N. subst bid. congruence.
  - intros x y Hy j. unfold t1, del_sess, unlink in Hy; simp. fold bid in Hy. destruct (upd_cases _ _ _ _ _ _ Hy) as [[-> [= <-]]|[N Hy']]; simp.
    + rewrite remove_in, (J8 _ _ Hb). setoid_rewrite Es. split; [intros ((z & Hz & E) & Nj); exists z; auto|intros (z & (Hz & Nj) & E); split; [exists z; auto|exact Nj]].
    + rewrite (J8 _ _ Hy'). setoid_rewrite Es. split; [|intros (z & (Hz & Nj) & E); exists z; auto].
      intros (z & Hz & E). exists z. split; [split; [exact Hz|]|exact E]. intros ->. apply N. subst bid. congruence.
  - intros j x Hx. apply Es in Hx. apply Hlive. apply (J9 j). apply Hx.
  - intros k. rewrite Li. apply remove_nodup. apply J10.
  - intros k j. rewrite Li, remove_in, J11. setoid_rewrite Es. split; [intros ((z & Hz & E) & Nj); exists z; auto|intros (z & (Hz & Nj) & E); split; [exists z; auto|exact Nj]].
  - exact J12.
  - unfold t1, del_sess; simp. rewrite J13, !length_sum. change (linked (set_stats _ _ _)) with (linked (unlink t i)).
    rewrite (linked_unlink _ t i (s_exp s)) by assumption. lia.
  - intros x Hx. apply J14. apply Hlive. exact Hx.
  - intros x Hx. apply J15. destruct (sess t1 x) as [y|] eqn:E; [|congruence]. apply Es in E. destruct E as [-> _]. discriminate.
  - exact J16.
Qed.

(** An entry without sessions is removed. *)
Definition del_bib (t : tb) (i : Z) : tb :=
  set_stats (set_bibs (set_trees t (remove_id i (tree6 t)) (remove_id i (tree4 t))) (upd (bibs t) i None)) (n_bibs t - 1) (n_sess t).
Lemma inv_del_bib : forall D t i b, inv D t -> bibs t i = Some b -> b_sess b = [] -> ~ In i D -> inv D (del_bib t i).
Proof.
  intros D t i b I Hb He HD. set (t1 := del_bib t i).
  assert (E6 : forall x, x <> i -> key6 t1 x = key6 t x) by (intros x N; unfold key6, t1, del_bib; simp; rewrite upd_neq by exact N; reflexivity).
  assert (E4 : forall x, x <> i -> key4 t1 x = key4 t x) by (intros x N; unfold key4, t1, del_bib; simp; rewrite upd_neq by exact N; reflexivity).
  assert (Li : forall k, list_of t1 k = list_of t k) by (intros []; reflexivity).
  assert (Hi4 : In i (tree4 t)) by (apply (in4 _ _ I); split; [congruence|exact HD]).
  assert (El : forall x, bibs t1 x <> None <-> bibs t x <> None /\ x <> i).
  { intros x. unfold t1, del_bib; simp. destruct (Z.eq_dec x i) as [->|N]; [rewrite upd_eq; tauto|rewrite upd_neq by exact N; tauto]. }
  assert (En : NoDup (tree4 t)) by (eapply srt_nodup; apply (i4 _ _ I)).
  destruct I as [J1 J2 J3 J4 J5 J6 J7 J8 J9 J10 J11 J12 J13 J14 J15 J16]. constructor.
  - unfold t1, del_bib; simp. fold t1. eapply srt_ext; [|apply srt_remove; exact J1]. intros x Hx. symmetry. apply E6. apply remove_in in Hx. apply Hx.
  - unfold t1, del_bib; simp. fold t1. eapply srt_ext; [|apply srt_remove; exact J2]. intros x Hx. symmetry. apply E4. apply remove_in in Hx. apply Hx.
  - intros x. rewrite El. unfold t1, del_bib; simp. rewrite remove_in, J3. tauto.
  - intros x. rewrite El. unfold t1, del_bib; simp. rewrite remove_in, J4. tauto.
  - exact J5.
  - intros x Hx. apply El. split; [apply J6; exact Hx|intros ->; tauto].
  - intros x y Hy. unfold t1, del_bib in Hy; simp. destruct (upd_cases _ _ _ _ _ _ Hy) as [[_ [=]]|[N Hy']]. apply (J7 _ _ Hy').
  - intros x y Hy j. unfold t1, del_bib in Hy; simp. destruct (upd_cases _ _ _ _ _ _ Hy) as [[_ [=]]|[N Hy']]. apply (J8 _ _ Hy').
  - intros j s Hs. apply El. change (sess t1) with (sess t) in Hs. split; [apply (J9 _ _ Hs)|]. intros E.
    assert (H : In j (b_sess b)) by (apply (J8 _ _ Hb); eauto). rewrite He in H. exact H.
  - intros k. rewrite Li. apply J10.
  - intros k j. rewrite Li. apply J11.
  - unfold t1, del_bib; simp. rewrite J12, !length_sum. rewrite (sumz_remove _ _ _ En Hi4). lia.
  - exact J13.
  - intros x Hx. apply J14. apply El in Hx. apply Hx.
  - exact J15.
  - exact J16.
Qed.
