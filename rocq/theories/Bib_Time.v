(** The expiration lists stay ordered by time while the clock does not go back. *)
Require Import Verif.Base Verif.Addr_Model Verif.Rtrie_Model Verif.Pool4_Model Verif.Pool4_Spec Verif.Fsm_Model Verif.Bib_Model
  Verif.Rbtree_Model Verif.Rbtree_Properties Verif.Bib_Inv Verif.Bib_Steps Verif.Bib_Fate Verif.Bib_Find Verif.Bib_Add Verif.Bib_Ops Verif.Bib_Hist.
Require Import Sorted.
Local Ltac Zify.zify_post_hook ::= idtac.

Definition tm (t : tb) (j : Z) : Z := match sess t j with Some s => s_time s | None => 0 end.
Definition asc (t : tb) (l : list Z) : Prop := StronglySorted (fun i j => tm t i <= tm t j) l.
Record ord (T : Z) (t : tb) : Prop := Ord {
  o_0 : 0 <= T;
  o_asc : forall k, asc t (list_of t k);
  o_max : forall j s, sess t j = Some s -> 0 <= s_time s <= T;
  o_q : StronglySorted (fun a b => q_time a <= q_time b) (queue t);
  o_qmax : forall n, In n (queue t) -> 0 <= q_time n <= T }.

Lemma asc_ext : forall t t' l, asc t l -> (forall j, In j l -> tm t' j = tm t j) -> asc t' l.
Proof.
  intros t t' l H. induction H as [|x l S IH F]; intros E; constructor.
  - apply IH. intros j Hj. apply E. right. exact Hj.
  - apply Forall_forall. intros y Hy. rewrite Forall_forall in F. specialize (F y Hy). rewrite !E; [exact F|right; exact Hy|left; reflexivity].
Qed.
Lemma asc_filter : forall t f l, asc t l -> asc t (filter f l).
Proof.
  intros t f l H. induction H as [|x l S IH F]; cbn [filter]; [constructor|]. destruct (f x); [|exact IH]. constructor; [exact IH|].
  apply Forall_forall. intros y Hy. apply filter_In in Hy. rewrite Forall_forall in F. apply F. apply Hy.
Qed.
Lemma asc_app : forall t a b, asc t a -> asc t b -> (forall x y, In x a -> In y b -> tm t x <= tm t y) -> asc t (a ++ b).
Proof.
  intros t a b Ha Hb H. induction Ha as [|x a S IH F]; cbn [app]; [exact Hb|]. constructor.
  - apply IH. intros u v Hu Hv. apply H; [right; exact Hu|exact Hv].
  - apply Forall_app. split; [exact F|]. apply Forall_forall. intros y Hy. apply H; [left; reflexivity|exact Hy].
Qed.
Lemma asc_split : forall t a b, asc t (a ++ b) -> asc t a /\ asc t b /\ (forall x y, In x a -> In y b -> tm t x <= tm t y).
Proof.
  intros t a. induction a as [|x a IH]; intros b H; cbn [app] in H.
  - split; [constructor|]. split; [exact H|]. intros x y [].
  - inversion H as [|x' l S F]; subst. destruct (IH b S) as (A & B & C). apply Forall_app in F. destruct F as [F1 F2]. split; [constructor; assumption|]. split; [exact B|].
    intros u v [<-|Hu] Hv; [rewrite Forall_forall in F2; apply F2; exact Hv|apply C; assumption].
Qed.
Lemma sorted_sub : forall A (R : A -> A -> Prop) f l, StronglySorted R l -> StronglySorted R (filter f l).
Proof.
  intros A R f l H. induction H as [|x l S IH F]; cbn [filter]; [constructor|]. destruct (f x); [|exact IH]. constructor; [exact IH|].
  apply Forall_forall. intros y Hy. apply filter_In in Hy. rewrite Forall_forall in F. apply F. apply Hy.
Qed.
Lemma sorted_suffix : forall A (R : A -> A -> Prop) a b, StronglySorted R (a ++ b) -> StronglySorted R b.
Proof. intros A R a b. induction a as [|x a IH]; intros H; [exact H|]. inversion H; subst. auto. Qed.
Lemma sorted_snoc : forall A (R : A -> A -> Prop) l x, StronglySorted R l -> (forall y, In y l -> R y x) -> StronglySorted R (l ++ [x]).
Proof.
  intros A R l x H Hx. induction H as [|y l S IH F]; cbn [app]; [constructor; constructor|]. constructor; [apply IH; intros z Hz; apply Hx; right; exact Hz|].
  apply Forall_app. split; [exact F|]. constructor; [apply Hx; left; reflexivity|constructor].
Qed.

Lemma tm_le : forall D T t k j, inv D t -> ord T t -> In j (list_of t k) -> 0 <= tm t j <= T.
Proof. intros D T t k j I O H. apply (ill _ _ I) in H. destruct H as (s & Hs & _). unfold tm. rewrite Hs. exact (o_max _ _ O _ _ Hs). Qed.

(** A session is given the time [T] and put at the end of a list. *)
Lemma ord_end : forall D T t t' i s', inv D t -> ord T t -> kept t t' i s' -> at_end t t' i (s_exp s') -> s_time s' = T -> ord T t'.
Proof.
  intros D T t t' i s' I O K A E. pose proof O as [O0 O1 O2 O3 O4].
  assert (Ht : forall j, tm t' j = if j =? i then T else tm t j) by (intros j; unfold tm; rewrite (k_sess _ _ _ _ K); destruct (j =? i); [exact E|reflexivity]).
  assert (Hr : forall l, asc t l -> asc t' (remove_id i l)).
  { intros l Hl. eapply asc_ext; [apply asc_filter; exact Hl|]. intros j Hj. apply filter_In in Hj. destruct Hj as [_ Hj]. rewrite Ht. destruct (j =? i); [discriminate|reflexivity]. }
  constructor; try exact O0.
  - intros k. rewrite A. destruct (same_timer (s_exp s') k) eqn:Ek; [|apply Hr; apply O1]. apply sorted_snoc; [apply Hr; apply O1|].
    intros y Hy. cbn beta. rewrite !Ht, Z.eqb_refl. destruct (y =? i) eqn:Ey; [lia|]. apply filter_In in Hy. eapply tm_le; [exact I|exact O|apply Hy].
  - intros j s. rewrite (k_sess _ _ _ _ K). destruct (j =? i); [intros X; injection X as <-; lia|apply O2].
  - rewrite (k_q _ _ _ _ K). exact O3.
  - rewrite (k_q _ _ _ _ K). exact O4.
Qed.

(** A session keeps its time and place. *)
Lemma ord_still : forall T t t' i s s', ord T t -> sess t i = Some s -> kept t t' i s' -> still t t' -> s_time s' = s_time s -> ord T t'.
Proof.
  intros T t t' i s s' [O0 O1 O2 O3 O4] Hs K S E.
  assert (Ht : forall j, tm t' j = tm t j).
  { intros j; unfold tm; rewrite (k_sess _ _ _ _ K); destruct (j =? i) eqn:Ej; [|reflexivity]. assert (j = i) by lia. subst j. rewrite Hs. exact E. }
  constructor; try exact O0.
  - intros k. rewrite S. eapply asc_ext; [apply O1|]. intros; apply Ht.
  - intros j s0. rewrite (k_sess _ _ _ _ K). destruct (j =? i); [intros X; injection X as <-; rewrite E; exact (O2 _ _ Hs)|apply O2].
  - rewrite (k_q _ _ _ _ K). exact O3.
  - rewrite (k_q _ _ _ _ K). exact O4.
Qed.

Lemma nth_split' : forall (l : list Z) n, (0 < n)%nat -> (n <= length l)%nat -> exists j, nth_error l (pred n) = Some j /\ firstn n l = firstn (pred n) l ++ [j].
Proof.
  intros l n H1 H2. destruct n as [|n]; [lia|]. cbn [pred]. destruct (nth_error l n) as [j|] eqn:E; [|apply nth_error_None in E; lia]. exists j. split; [reflexivity|]. apply firstn_S_nth. exact E.
Qed.

Lemma nth_skip : forall (l : list Z) n x, nth_error (skipn n l) x = nth_error l (n + x).
Proof. intros l n. revert l. induction n as [|n IH]; intros l x; [reflexivity|]. destruct l as [|y l]; [destruct x; reflexivity|]. apply IH. Qed.

(** Around position [n], times below and above [time]. *)
Lemma asc_around : forall D t k time n i, inv D t -> asc t (list_of t k) -> (n <= length (list_of t k))%nat ->
  (forall x j s', (n <= x)%nat -> nth_error (list_of t k) x = Some j -> j <> i -> sess t j = Some s' -> time <= s_time s') ->
  (forall j s', (0 < n)%nat -> nth_error (list_of t k) (pred n) = Some j -> sess t j = Some s' -> s_time s' < time) ->
  (forall j, In j (firstn n (list_of t k)) -> tm t j <= time) /\ (forall j, In j (skipn n (list_of t k)) -> j <> i -> time <= tm t j).
Proof.
  intros D t k time n i I A Hn H1 H2. split.
  - intros j Hj. destruct (Nat.eq_dec n 0) as [->|N]; [destruct Hj|]. destruct (nth_split' (list_of t k) n ltac:(lia) Hn) as (l & E1 & E2).
    assert (Hl : In l (list_of t k)) by (eapply nth_error_In; exact E1). apply (ill _ _ I) in Hl. destruct Hl as (s & Hs & _).
    pose proof (H2 l s ltac:(lia) E1 Hs) as X. assert (Y : tm t l = s_time s) by (unfold tm; rewrite Hs; reflexivity).
    rewrite E2 in Hj. apply in_app_iff in Hj. destruct Hj as [Hj|[<-|[]]]; [|lia].
    rewrite <- (firstn_skipn n (list_of t k)), E2 in A. apply asc_split in A. destruct A as (A & _). apply asc_split in A. destruct A as (_ & _ & A). specialize (A j l Hj (or_introl eq_refl)). lia.
  - intros j Hj Nj. apply In_nth_error in Hj. destruct Hj as [x Hx]. rewrite nth_skip in Hx. assert (Hl : In j (list_of t k)) by (eapply nth_error_In; exact Hx).
    apply (ill _ _ I) in Hl. destruct Hl as (s & Hs & _). unfold tm. rewrite Hs. apply (H1 (n + x)%nat j s); auto. lia.
Qed.

Lemma ord_by_time : forall D T t t' i s', inv D t -> ord T t -> kept t t' i s' -> by_time t t' i (s_time s') (s_exp s') -> 0 <= s_time s' <= T -> ord T t'.
Proof.
  intros D T t t' i s' I O K (n & Hn & H1 & H2 & H3) E. pose proof O as [O0 O1 O2 O3 O4].
  assert (Ht : forall j, tm t' j = if j =? i then s_time s' else tm t j) by (intros j; unfold tm; rewrite (k_sess _ _ _ _ K); destruct (j =? i); reflexivity).
  assert (Hr : forall l, asc t l -> asc t' (remove_id i l)).
  { intros l Hl. eapply asc_ext; [apply asc_filter; exact Hl|]. intros j Hj. apply filter_In in Hj. destruct Hj as [_ Hj]. rewrite Ht. destruct (j =? i); [discriminate|reflexivity]. }
  destruct (asc_around D t (s_exp s') (s_time s') n i I (O1 _) Hn H1) as [B1 B2]; [intros j s0 X1 X2 X3; apply (H2 j s0 X1 X2 X3)|].
  constructor; try exact O0.
  - intros k. rewrite H3. destruct (same_timer (s_exp s') k) eqn:Ek; [|apply Hr; apply O1].
    pose proof (O1 (s_exp s')) as A. rewrite <- (firstn_skipn n (list_of t (s_exp s'))) in A. apply asc_split in A. destruct A as (A1 & A2 & A3).
    assert (R : forall j l, In j (remove_id i l) -> In j l /\ j <> i /\ tm t' j = tm t j).
    { intros j l Hj. apply filter_In in Hj. destruct Hj as [X Y]. split; [exact X|]. rewrite Ht. destruct (j =? i) eqn:Ej; [discriminate|]. split; [lia|reflexivity]. }
    assert (Hi : tm t' i = s_time s') by (rewrite Ht, Z.eqb_refl; reflexivity).
    apply asc_app; [apply Hr; exact A1| |].
    + constructor; [apply Hr; exact A2|]. apply Forall_forall. intros y Hy. apply R in Hy. destruct Hy as (Y1 & Y2 & Y3). rewrite Hi, Y3. apply B2; assumption.
    + intros x y Hx Hy. apply R in Hx. destruct Hx as (X1 & X2 & X3). rewrite X3. destruct Hy as [<-|Hy]; [rewrite Hi; apply B1; exact X1|].
      apply R in Hy. destruct Hy as (Y1 & Y2 & Y3). rewrite Y3. apply A3; assumption.
  - intros j s. rewrite (k_sess _ _ _ _ K). destruct (j =? i); [intros X; injection X as <-; lia|apply O2].
  - rewrite (k_q _ _ _ _ K). exact O3.
  - rewrite (k_q _ _ _ _ K). exact O4.
Qed.

Lemma ord_gone : forall T t t' i b, ord T t -> gone t t' i b -> ord T t'.
Proof.
  intros T t t' i b [O0 O1 O2 O3 O4] G. constructor; try exact O0.
  - intros k. rewrite (g_lists _ _ _ _ G). eapply asc_ext; [apply asc_filter; apply O1|]. intros j Hj. apply filter_In in Hj. unfold tm. rewrite (g_sess _ _ _ _ G). destruct (j =? i); [destruct Hj; discriminate|reflexivity].
  - intros j s. rewrite (g_sess _ _ _ _ G). destruct (j =? i); [discriminate|apply O2].
  - rewrite (g_q _ _ _ _ G). exact O3.
  - rewrite (g_q _ _ _ _ G). exact O4.
Qed.

Lemma ord_less : forall T t t' dead, ord T t -> (forall j s, sess t' j = Some s -> sess t j = Some s) -> (forall j k, In j (list_of t' k) -> sess t' j <> None) ->
  (forall k, list_of t' k = drop_ids dead (list_of t k)) -> (queue t' = queue t \/ exists f, queue t' = filter f (queue t)) -> ord T t'.
Proof.
  intros T t t' dead [O0 O1 O2 O3 O4] Hs Hn Hl Hq. constructor; try exact O0.
  - intros k. pose proof (Hn) as Hn'. eapply asc_ext; [rewrite Hl; apply asc_filter; apply O1|]. intros j Hj. specialize (Hn j k Hj). unfold tm. destruct (sess t' j) as [s|] eqn:E; [|congruence].
    rewrite (Hs _ _ E). reflexivity.
  - intros j s H. apply (O2 j). apply Hs. exact H.
  - destruct Hq as [->|(f & ->)]; [exact O3|apply sorted_sub; exact O3].
  - destruct Hq as [->|(f & ->)]; [exact O4|]. intros n Hn'. apply filter_In in Hn'. apply O4. apply Hn'.
Qed.

(** joold is asked about the past, and about a list that exists. *)
Definition sync_time_ok (T : Z) (o : op) : Prop := match o with OSync e _ _ => 0 <= e_time e <= T /\ e_timer e <> T_BAD | _ => True end.

Lemma ord_fate : forall D T t t' i s e f, inv D t -> ord T t -> live D t i s -> fate_done t t' i s e f T ->
  match f with
  | FATE_TIMER_SLOW => e_timer e <> T_BAD /\ 0 <= e_time e <= T
  | FATE_PRESERVE | FATE_DROP => e_time e = s_time s
  | _ => True end -> ord T t'.
Proof.
  intros D T t t' i s e f I O L F H. unfold fate_done in F. destruct f.
  - destruct F as [K A]. eapply ord_end; eauto.
  - destruct F as [K A]. eapply ord_end; eauto.
  - eapply ord_gone; eauto.
  - destruct F as [K A]. eapply ord_still; eauto. apply L.
  - destruct F as [K A]. eapply ord_end; eauto.
  - destruct F as [K A]. eapply ord_still; eauto. apply L.
  - destruct H as [H1 H2]. replace (same_timer T_BAD (e_timer e)) with false in F by (destruct (e_timer e); [reflexivity..|congruence]). destruct F as [K A]. eapply ord_by_time; eauto.
Qed.

Lemma ord_closed : forall c p o T, (timed o = true -> op_now o = T) -> sync_time_ok T o -> closed c p o (ord T).
Proof.
  intros c p o T Hn Hs. constructor.
  - intros D t t' i s b r I I' L Hb R F O. assert (Hd : timed o = true) by (destruct o; try reflexivity; destruct R). rewrite (Hn Hd) in F. apply (ord_fate D T t t' i s (fst r) (snd r) I O L F).
    destruct o; cbn [reacts] in R; try discriminate.
    + subst r. exact Logic.I.
    + subst r. exact Logic.I.
    + destruct R as [_ ->]. pose proof (tsm_fates (c_handle_rst c) g (entry_of c p b s)) as X. pose proof (tsm_time (c_handle_rst c) g (entry_of c p b s)) as [Y _]. destruct (snd _); auto; contradiction.
    + destruct R as [_ ->]. pose proof (tsm_fates (c_handle_rst c) g (entry_of c p b s)) as X. pose proof (tsm_time (c_handle_rst c) g (entry_of c p b s)) as [Y _]. destruct (snd _); auto; contradiction.
    + subst r. unfold collision_cb. destruct (session_equals _ _); cbn [fst snd e_timer e_time]; [cbn [sync_time_ok] in Hs; tauto|reflexivity].
    + destruct R as (k & _ & ->). unfold expire_cb. destruct p, k; try exact Logic.I. unfold tcp_est_expire_cb. destruct (_ =? _); exact Logic.I.
  - intros D t t' sid s b' I I' A _ C Hp O. pose proof O as [O0 O1 O2 O3 O4]. assert (Hd : timed o = true) by (destruct o; try reflexivity; destruct C). specialize (Hn Hd).
    assert (Hl : forall k, ~ In sid (list_of t k)) by (intros k X; apply (ill _ _ I) in X; destruct X as (s0 & X & _); rewrite (a_s0 _ _ _ _ _ A) in X; discriminate).
    assert (Ht : forall j, tm t' j = if j =? sid then s_time s else tm t j) by (intros j; unfold tm; rewrite (a_sess _ _ _ _ _ A); destruct (j =? sid); reflexivity).
    assert (Hr : forall l k, asc t l -> (forall j, In j l -> In j (list_of t k)) -> asc t' l).
    { intros l k X Y. eapply asc_ext; [exact X|]. intros j Hj. rewrite Ht. destruct (j =? sid) eqn:E; [|reflexivity]. assert (j = sid) by lia. subst. exfalso. eapply Hl; eauto. }
    assert (Hx : forall j k, In j (list_of t k) -> tm t' j = tm t j) by (intros j k Hj; rewrite Ht; destruct (j =? sid) eqn:E; [assert (j = sid) by lia; subst; exfalso; eapply Hl; eauto|reflexivity]).
    assert (Hi : tm t' sid = s_time s) by (rewrite Ht, Z.eqb_refl; reflexivity).
    assert (Hm : 0 <= s_time s <= T).
    { destruct o; cbn [creates sync_time_ok op_now] in *; try discriminate.
      - destruct C as (_ & _ & _ & -> & _). lia.
      - destruct C as (_ & _ & _ & -> & _). lia.
      - destruct C as (_ & _ & -> & _). lia.
      - destruct C as (_ & _ & _ & ->). lia.
      - destruct C as (_ & _ & _ & -> & _). lia.
      - contradiction. }
    constructor; try exact O0.
    + assert (He : (forall k, list_of t' k = if same_timer (s_exp s) k then list_of t k ++ [sid] else list_of t k) -> s_time s = T -> forall k, asc t' (list_of t' k)).
      { intros El Es k. rewrite El. destruct (same_timer (s_exp s) k); [|apply (Hr _ k (O1 k)); auto]. apply sorted_snoc; [apply (Hr _ k (O1 k)); auto|].
        intros y Hy. cbn beta. rewrite Hi, (Hx y k Hy), Es. eapply tm_le; eauto. }
      destruct o; cbn [creates placed op_now] in *; try discriminate; try contradiction.
      * apply He; [exact Hp|]. destruct C as (_ & _ & _ & -> & _). exact Hn.
      * apply He; [exact Hp|]. destruct C as (_ & _ & _ & -> & _). exact Hn.
      * apply He; [exact Hp|]. destruct C as (_ & _ & -> & _). exact Hn.
      * apply He; [exact Hp|]. destruct C as (_ & _ & _ & ->). exact Hn.
      * destruct Hp as (n & Hn' & H1 & H2 & H3). destruct (asc_around D t (s_exp s) (s_time s) n sid I (O1 _) Hn') as [B1 B2]; [intros; eapply H1; eauto|exact H2|].
        intros k. rewrite H3. destruct (same_timer (s_exp s) k) eqn:Ek; [|apply (Hr _ k (O1 k)); auto].
        assert (k = s_exp s) by (destruct (s_exp s), k; try discriminate; reflexivity). subst k. unfold insert_at.
        pose proof (O1 (s_exp s)) as X. rewrite <- (firstn_skipn n (list_of t (s_exp s))) in X. apply asc_split in X. destruct X as (A1 & A2 & A3).
        assert (F1 : forall j, In j (firstn n (list_of t (s_exp s))) -> In j (list_of t (s_exp s))) by (intros j Hj; rewrite <- (firstn_skipn n); apply in_or_app; left; exact Hj).
        assert (F2 : forall j, In j (skipn n (list_of t (s_exp s))) -> In j (list_of t (s_exp s))) by (intros j Hj; rewrite <- (firstn_skipn n); apply in_or_app; right; exact Hj).
        apply asc_app; [eapply Hr; [exact A1|exact F1]| |].
        -- constructor; [eapply Hr; [exact A2|exact F2]|]. apply Forall_forall. intros y Hy. rewrite Hi, (Hx y _ (F2 y Hy)). apply B2; [exact Hy|]. intros ->. eapply Hl. apply F2. exact Hy.
        -- intros x y Hx' Hy. rewrite (Hx x _ (F1 x Hx')). destruct Hy as [<-|Hy]; [rewrite Hi; apply B1; exact Hx'|]. rewrite (Hx y _ (F2 y Hy)). apply A3; assumption.
    + intros j s0. rewrite (a_sess _ _ _ _ _ A). destruct (j =? sid); [intros X; injection X as <-; exact Hm|apply O2].
    + rewrite (a_q _ _ _ _ _ A). exact O3.
    + rewrite (a_q _ _ _ _ _ A). exact O4.
  - intros t t1 w masks bdl evs I Pr _ O. destruct (p_lists _ _ _ _ _ _ Pr) as (dead & _ & Hl). eapply ord_less; [exact O| | |exact Hl|].
    + intros j s. rewrite (p_sess _ _ _ _ _ _ Pr). auto.
    + intros j k Hj. apply (ill _ _ (p_inv _ _ _ _ _ _ Pr)) in Hj. destruct Hj as (s & Hj & _). congruence.
    + destruct (p_q _ _ _ _ _ _ Pr) as [[X _]|(n & _ & _ & X & _)]; [left; exact X|]. right. rewrite X. unfold q_rm. eexists. reflexivity.
  - intros D t t' I Hb Hss H4 Hl Hq O. eapply (ord_less T t t' []); [exact O| | | |left; exact Hq].
    + intros j s Hj. apply Hss in Hj. apply Hj.
    + intros j k Hj. rewrite Hl in Hj. apply (ill _ _ I) in Hj. destruct Hj as (s & Hj & _ & Nd). assert (X : sess t' j = Some s) by (apply Hss; auto). congruence.
    + intros k. rewrite Hl, drop_nil. reflexivity.
  - intros t t' l I R _ O. destruct (r_lists _ _ _ R) as (dead & Hd & Hl). eapply ord_less; [exact O| | |exact Hl|left; apply (r_q _ _ _ R)].
    + intros j s Hj. apply (r_sess _ _ _ R) in Hj. apply Hj.
    + intros j k Hj. rewrite Hl in Hj. apply drop_in in Hj. destruct Hj as [Hj Nd]. apply (ill _ _ I) in Hj. destruct Hj as (s & Hj & _). assert (X : sess t' j = Some s); [|congruence].
      apply (r_sess _ _ _ R). split; [exact Hj|]. intros X. apply Nd. apply Hd. eauto.
  - intros t q n [O0 O1 O2 O3 O4] H. constructor; try exact O0.
    + intros k. specialize (O1 k). destruct k; exact O1.
    + exact O2.
    + cbn. destruct H as [(pre & H)|(_ & Hd & _ & x & -> & Hx)]; [rewrite H in O3; eapply sorted_suffix; exact O3|]. apply sorted_snoc; [exact O3|]. intros y Hy. rewrite Hx, (Hn Hd). apply O4. exact Hy.
    + cbn. intros y Hy. destruct H as [(pre & H)|(_ & Hd & _ & x & -> & Hx)]; [apply O4; rewrite H; apply in_or_app; auto|]. apply in_app_iff in Hy. destruct Hy as [Hy|[<-|[]]]; [apply O4; exact Hy|]. rewrite Hx, (Hn Hd). lia.
  - intros t t' s6 s4 evs I St [O0 O1 O2 O3 O4]. pose proof (static_sess _ _ _ _ _ _ St) as Es. inversion St as [|i b H1 H2 H3 H4 E H5| |i H1 H2 H3 H4 H5 H6 H7 H8 H9 H10 H11].
    + rewrite E. constructor; [exact O0|intros k; specialize (O1 k); destruct k; exact O1|exact O2|exact O3|exact O4].
    + constructor; try exact O0.
      * intros k. rewrite H5. eapply asc_ext; [apply O1|]. intros j _. unfold tm. rewrite Es. reflexivity.
      * rewrite Es. exact O2.
      * rewrite H10. destruct p; [apply sorted_sub|..]; exact O3.
      * rewrite H10. intros n Hn'. apply O4. destruct p; try exact Hn'. apply filter_In in Hn'. apply Hn'.
Qed.

Lemma ord_mono : forall T T' t, ord T t -> T <= T' -> ord T' t.
Proof.
  intros T T' t [O0 O1 O2 O3 O4] H. constructor; auto; [lia| |].
  - intros j s Hs. specialize (O2 j s Hs). lia.
  - intros n Hn. specialize (O4 n Hn). lia.
Qed.
Lemma ord_init : ord 0 init_table.
Proof. constructor; [lia|intros k; destruct k; constructor|discriminate|constructor|intros n []]. Qed.

(** A history during which the clock never goes back; joold's news are about the past. *)
Fixpoint clock (T : Z) (h : list (cfg * op)) : Prop :=
  match h with
  | [] => True
  | (_, o) :: h' => if timed o then T <= op_now o /\ sync_time_ok (op_now o) o /\ clock (op_now o) h' else clock T h'
  end.
Fixpoint last_time (T : Z) (h : list (cfg * op)) : Z :=
  match h with [] => T | (_, o) :: h' => last_time (if timed o then op_now o else T) h' end.

Theorem run_ord : forall p h T t t' evs, wf h -> clock T h -> inv [] t -> ord T t -> run p t h = Ok (t', evs) -> ord (last_time T h) t'.
Proof.
  intros p h. induction h as [|(c, o) h IH]; intros T t t' evs W C I O E; cbn [run clock last_time] in *.
  - injection E as <- <-. exact O.
  - apply Forall_cons_iff in W. destruct W as [W1 W2]. cbn [snd] in W1. destruct (step_ok c p o t W1 I) as [(E1 & _)|(x & t1 & e1 & E1 & [I1 _ _ _])]; rewrite E1 in E; cbn [bind] in E; [discriminate|].
    destruct (run p t1 h) as [(t2, e2)| |] eqn:E2; cbn [bind fst snd] in E; try discriminate. injection E as <- <-.
    destruct (timed o) eqn:Et.
    + destruct C as (C1 & C2 & C3). apply (IH _ t1 t2 e2 W2 C3 I1); [|exact E2]. apply (step_P c p o (ord (op_now o)) t x t1 e1 W1); auto.
      * apply ord_closed; auto.
      * eapply ord_mono; eauto.
    + apply (IH T t1 t2 e2 W2 C I1); [|exact E2]. apply (step_P c p o (ord T) t x t1 e1 W1); auto. apply ord_closed; [rewrite Et; discriminate|]. destruct o; try exact Logic.I. discriminate.
Qed.

(** ** Cleaning *)
Definition elapsed (c : cfg) (p : proto) (s : tsess) (now : Z) : Prop := s_time s + get_timeout c p (s_exp s) <= now.

Lemma mtj : forall d m, 0 < d -> 0 <= m -> 0 <= msecs_to_jiffies d m < 2 ^ 62.
Proof.
  intros d m Hd Hm. unfold msecs_to_jiffies, MAX_JIFFY_OFFSET. change (2^62) with 4611686018427387904. change (2^31) with 2147483648. destruct (m <? 2147483648) eqn:E; [|lia].
  assert (0 <= (m + d - 1) / d) by (apply Z.div_pos; lia). split; [assumption|]. assert ((m + d - 1) / d < m + d); [|].
  - apply Z.div_lt_upper_bound; [lia|]. nia.
  - assert ((m + d - 1) / d <= m); [|lia]. destruct (Z.eq_dec m 0) as [->|N]; [rewrite Z.div_small; lia|]. apply Z.div_le_upper_bound; [lia|]. nia.
Qed.
(** The timeouts are unsigned 32-bit milliseconds, and the kernel's HZ divides 1000 evenly. *)
Definition cfg_ok (c : cfg) : Prop := 0 < c_hz c /\ 0 <= c_tcp_est c /\ 0 <= c_tcp_trans c /\ 0 <= c_udp c /\ 0 <= c_icmp c.
Lemma timeout_range : forall c p k, cfg_ok c -> 0 <= get_timeout c p k < 2 ^ 62.
Proof. intros c p k (H0 & H1 & H2 & H3 & H4). unfold get_timeout. apply mtj; [exact H0|]. unfold TCP_INCOMING_SYN. destruct p, k; lia. Qed.

Lemma before_elapsed : forall now a d, 0 <= a -> 0 <= now < 2 ^ 62 -> a <= now -> 0 <= d < 2 ^ 62 -> time_before now (u64 (a + d)) = true <-> now < a + d.
Proof.
  intros now a d Ha Hn Hl Hd. change (2^62) with 4611686018427387904 in *. unfold time_before, s64, u64. change (2^64) with 18446744073709551616. change (2^63) with 9223372036854775808.
  rewrite (Z.mod_small (a + d)) by lia.
  destruct (Z_lt_ge_dec now (a + d)) as [L|L].
  - replace ((now - (a + d)) mod 18446744073709551616) with (now - (a + d) + 18446744073709551616).
    + destruct (now - (a + d) + 18446744073709551616 <? 9223372036854775808) eqn:E; [lia|]. split; intros; lia.
    + apply Z.mod_unique with (-1); lia.
  - rewrite Z.mod_small by lia. destruct (now - (a + d) <? 9223372036854775808) eqn:E; [|lia]. split; intros; lia.
Qed.

Lemma swept_spec : forall c p t t' k now, k <> T_BAD -> cfg_ok c -> now < 2 ^ 62 -> inv [] t -> ord now t -> swept c p t t' k now ->
  (forall j, sess t j = None -> sess t' j = None) /\
  (forall j s, sess t j = Some s -> s_exp s <> k \/ ~ elapsed c p s now -> sess t' j = Some s) /\
  (forall j s, sess t j = Some s -> s_exp s = k -> elapsed c p s now ->
     if match p, k with TCP, T_EST => s_state s =? ESTABLISHED | _, _ => false end
     then sess t' j = Some (TS (s_dst6 s) (s_dst4 s) TRANS (s_bib s) now T_TRANS None) else sess t' j = None).
Proof.
  intros c p t t' k now Nk Hc Hn I [O0 O1 O2 _ _] (pre & post & El & H1 & H2 & H3 & H4).
  assert (Hb : forall s j, sess t j = Some s -> s_exp s = k -> time_before now (u64 (s_time s + get_timeout c p k)) = false <-> elapsed c p s now).
  { intros s j Hs Ek. pose proof (O2 j s Hs) as X. pose proof (timeout_range c p k Hc) as Y. pose proof (before_elapsed now (s_time s) (get_timeout c p k) ltac:(lia) ltac:(lia) ltac:(lia) Y) as Z.
    unfold elapsed. rewrite Ek. destruct (time_before _ _); split; intros; try discriminate; try reflexivity; lia. }
  assert (Hin : forall j s, sess t j = Some s -> s_exp s = k -> In j pre \/ In j post).
  { intros j s Hs Ek. apply in_app_iff. rewrite <- El. apply (ill _ _ I). exists s. auto. }
  assert (Hpre : forall j, In j pre -> exists s b, sess t j = Some s /\ s_exp s = k /\ bibs t (s_bib s) = Some b).
  { intros j Hj. assert (X : In j (list_of t k)) by (rewrite El; apply in_or_app; left; exact Hj). apply (ill _ _ I) in X. destruct X as (s & X & Y & _). pose proof (isb _ _ I _ _ X) as Z.
    destruct (bibs t (s_bib s)) as [b|] eqn:E; [|congruence]. eauto. }
  assert (Hpost : forall j s, sess t j = Some s -> In j post -> s_exp s = k -> ~ elapsed c p s now).
  { intros j s Hs Hj Ek He. destruct post as [|j0 post]; [destruct Hj|]. destruct H2 as (s0 & Hs0 & Ht0).
    assert (Ek0 : s_exp s0 = k) by (assert (X : In j0 (list_of t k)) by (rewrite El; apply in_or_app; right; left; reflexivity); apply (ill _ _ I) in X; destruct X as (sx & X & Y & _); congruence).
    assert (Le : s_time s0 <= s_time s).
    { destruct Hj as [->|Hj]; [assert (s = s0) by congruence; subst; lia|]. specialize (O1 k). rewrite El in O1. apply asc_split in O1. destruct O1 as (_ & O1 & _). inversion O1 as [|x l S F]. subst.
      rewrite Forall_forall in F. specialize (F j Hj). unfold tm in F. rewrite Hs, Hs0 in F. exact F. }
    assert (N0 : ~ elapsed c p s0 now) by (intros X; apply (Hb s0 j0 Hs0 Ek0) in X; congruence). unfold elapsed in *. rewrite Ek0 in N0. rewrite Ek in He. lia. }
  split; [|split].
  - intros j Hj. rewrite H3; [exact Hj|]. intros X. destruct (Hpre j X) as (s & b & Y & _). congruence.
  - intros j s Hs Ho. rewrite H3; [exact Hs|]. intros X. destruct (Hpre j X) as (s0 & b & Y & Z & _). assert (s0 = s) by congruence. subst s0.
    destruct Ho as [Ho|Ho]; [congruence|]. apply Ho. apply (Hb s j Hs Z). apply (H1 j s X Hs).
  - intros j s Hs Ek He. destruct (Hin j s Hs Ek) as [X|X]; [|exfalso; exact (Hpost j s Hs X Ek He)]. destruct (Hpre j X) as (s0 & b & Y & _ & Hbb). assert (s0 = s) by congruence. subst s0.
    destruct (H4 j s b X Hs Hbb) as (t1 & t2 & F & E). rewrite E.
    assert (Hrm : expire_cb p k now (entry_of c p b s) = (entry_of c p b s, FATE_RM) -> sess t2 j = None).
    { intros R. rewrite R in F. cbn [fst snd fate_done] in F. rewrite (g_sess _ _ _ _ F), Z.eqb_refl. reflexivity. }
    destruct p; try (apply Hrm; reflexivity). destruct k; try (apply Hrm; reflexivity). cbn [expire_cb] in *. unfold tcp_est_expire_cb in *. cbn [entry_of e_state] in *.
    destruct (s_state s =? ESTABLISHED); [|apply Hrm; reflexivity]. cbn [fst snd fate_done] in F. destruct F as [K _]. rewrite (k_sess _ _ _ _ K), Z.eqb_refl. reflexivity.
Qed.

(** The session an expired one turns into. *)
Definition renewed (p : proto) (s : tsess) (now : Z) : option tsess :=
  match p, s_exp s with
  | TCP, T_EST => if s_state s =? ESTABLISHED then Some (TS (s_dst6 s) (s_dst4 s) TRANS (s_bib s) now T_TRANS None) else None
  | _, _ => None
  end.
Definition cleaned (c : cfg) (p : proto) (now : Z) (o : option tsess) : option tsess :=
  let once o := match o with
                | Some s => if s_time s + get_timeout c p (s_exp s) <=? now then renewed p s now else Some s
                | None => None end in
  once (once o).

Theorem clean_exact : forall c p t now al, cfg_ok c -> now < 2 ^ 62 -> inv [] t -> ord now t -> exists t' evs, clean_table c p t now al = Ok (t', evs) /\ inv [] t' /\ ord now t' /\
  (forall j, sess t' j = cleaned c p now (sess t j)) /\
  (forall j s, sess t' j = Some s -> ~ elapsed c p s now) /\
  (forall j s, sess t j = Some s -> ~ elapsed c p s now -> sess t' j = Some s).
Proof.
  intros c p t now al Hc Hn I O.
  destruct (clean_table_ok c p now (ord now)) with (t := t) (al := al) as (t' & evs & E & I' & A & O' & t1 & t2 & t3 & pre & S1 & S2 & S3 & I1 & I2 & I3 & O1 & O2 & O3 & Hb & Hs & _ & Hl & Hq & _); auto.
  { intros k u i s b u' Nk Iu Lu Hb Ou Iu' Fd. refine (cl_fate c p (OClean now al) (ord now) _ [] u u' i s b (expire_cb p k now (entry_of c p b s)) Iu Iu' Lu Hb _ Fd Ou); [|cbn [reacts]; eauto].
    apply ord_closed; [reflexivity|exact Logic.I]. }
  { intros u q n Ou Hq. refine (cl_queue c p (OClean now al) (ord now) _ u q n Ou (or_introl Hq)). apply ord_closed; [reflexivity|exact Logic.I]. }
  exists t', evs. split; [exact E|]. split; [exact I'|]. split; [exact O'|].
  destruct (swept_spec c p t t1 T_EST now ltac:(discriminate) Hc Hn I O S1) as (A1 & A2 & A3).
  destruct (swept_spec c p t1 t2 T_TRANS now ltac:(discriminate) Hc Hn I1 O1 S2) as (B1 & B2 & B3).
  destruct (swept_spec c p t2 t3 T_SYN4 now ltac:(discriminate) Hc Hn I2 O2 S3) as (C1 & C2 & C3).
  rewrite Hs.
  assert (Hnb : forall j s, sess t j = Some s -> s_exp s <> T_BAD) by (intros j s X Y; assert (Z : In j (list_of t T_BAD)) by (apply (ill _ _ I); exists s; auto); destruct Z).
  assert (Hd : forall s, elapsed c p s now \/ ~ elapsed c p s now) by (intros s; unfold elapsed; lia).
  assert (Main : forall j, sess t3 j = cleaned c p now (sess t j)).
  { intros j. unfold cleaned. destruct (sess t j) as [s|] eqn:Es; [|auto].
    assert (He : elapsed c p s now <-> (s_time s + get_timeout c p (s_exp s) <=? now) = true) by (unfold elapsed; lia).
    destruct (Hd s) as [X|X].
    - rewrite (proj1 He X). unfold renewed. destruct (s_exp s) eqn:Ek; [| | |exfalso; exact (Hnb j s Es Ek)].
      + specialize (A3 j s Es Ek X). destruct p; try (auto; fail). cbn [s_state] in *. destruct (s_state s =? ESTABLISHED) eqn:Est; [|auto].
        set (s' := TS _ _ _ _ _ _ _) in *. destruct (Hd s') as [Y|Y].
        * replace (s_time s' + get_timeout c TCP (s_exp s') <=? now) with true by (unfold elapsed in Y; lia). cbn [s_exp s']. apply C1. exact (B3 j s' A3 eq_refl Y).
        * replace (s_time s' + get_timeout c TCP (s_exp s') <=? now) with false by (unfold elapsed in Y; lia). apply (C2 j s'); [apply (B2 j s'); auto|auto].
      + assert (X1 : sess t1 j = Some s) by (apply (A2 j s Es); left; congruence). specialize (B3 j s X1 Ek X). destruct p; auto.
      + assert (X1 : sess t1 j = Some s) by (apply (A2 j s Es); left; congruence). assert (X2 : sess t2 j = Some s) by (apply (B2 j s X1); left; congruence). specialize (C3 j s X2 Ek X). destruct p; auto.
    - replace (s_time s + get_timeout c p (s_exp s) <=? now) with false by (unfold elapsed in X; lia).
      replace (s_time s + get_timeout c p (s_exp s) <=? now) with false by (unfold elapsed in X; lia). apply (C2 j s); auto. }
  split; [exact Main|]. split.
  - intros j s Hj. rewrite Main in Hj. unfold cleaned in Hj. destruct (sess t j) as [s0|]; [|discriminate].
    destruct (s_time s0 + get_timeout c p (s_exp s0) <=? now) eqn:Et.
    + unfold elapsed. destruct (renewed p s0 now) as [s1|] eqn:Er; [|discriminate]. unfold renewed in Er. destruct p; try discriminate. destruct (s_exp s0); try discriminate.
      destruct (s_state s0 =? ESTABLISHED); [|discriminate]. injection Er as <-. cbn [s_time s_exp] in Hj. destruct (_ <=? now) eqn:E2 in Hj; [cbn in Hj; discriminate|]. injection Hj as <-. cbn [s_time s_exp]. lia.
    + rewrite Et in Hj. injection Hj as <-. unfold elapsed. lia.
  - intros j s Hj X. rewrite Main, Hj. unfold cleaned. replace (s_time s + get_timeout c p (s_exp s) <=? now) with false by (unfold elapsed in X; lia).
    replace (s_time s + get_timeout c p (s_exp s) <=? now) with false by (unfold elapsed in X; lia). reflexivity.
Qed.
