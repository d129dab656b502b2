(** Removing entries, and the bookkeeping of stored packets. *)
Require Import Verif.Base Verif.Addr_Model Verif.Rtrie_Model Verif.Pool4_Model Verif.Fsm_Model Verif.Bib_Model
  Verif.Rbtree_Model Verif.Rbtree_Properties Verif.Bib_Inv.
From Coq Require Import Sorting.Sorted.
Local Ltac Zify.zify_post_hook ::= idtac.

Definition drop_ids (l m : list Z) : list Z := filter (fun j => negb (mem_id j l)) m.
Lemma drop_in : forall l m j, In j (drop_ids l m) <-> In j m /\ ~ In j l.
Proof. intros. unfold drop_ids. rewrite filter_In, negb_true_iff, <- not_true_iff_false, mem_in. reflexivity. Qed.
Lemma drop_cons : forall i l m, drop_ids l (remove_id i m) = drop_ids (i :: l) m.
Proof.
  intros i l. induction m as [|j m IH]; [reflexivity|]. unfold remove_id, drop_ids in *. cbn [filter]. unfold mem_id at 2. cbn [existsb].
  rewrite (Z.eqb_sym j i). destruct (i =? j) eqn:E; cbn [negb orb filter]; [exact IH|]. fold (mem_id j l).
  destruct (mem_id j l); cbn [negb]; rewrite IH; reflexivity.
Qed.
Lemma drop_nodup : forall l m, NoDup m -> NoDup (drop_ids l m).
Proof. intros. apply NoDup_filter. assumption. Qed.
Lemma drop_nil : forall m, drop_ids [] m = m.
Proof. induction m; cbn; [reflexivity|]. f_equal. exact IHm. Qed.
Lemma drop_app : forall l m n, drop_ids l (m ++ n) = drop_ids l m ++ drop_ids l n.
Proof. intros. apply filter_app. Qed.
Lemma drop_sum : forall f l m, NoDup m -> NoDup l -> (forall j, In j l -> In j m) -> sumz f (drop_ids l m) = sumz f m - sumz f l.
Proof.
  intros f. induction l as [|i l IH]; intros m Hm Hl Hi; [rewrite drop_nil; cbn [sumz]; lia|].
  apply NoDup_cons_iff in Hl. destruct Hl as [Hl1 Hl2]. rewrite <- drop_cons. rewrite IH.
  - rewrite sumz_remove by (auto; apply Hi; left; reflexivity). cbn [sumz]. lia.
  - apply remove_nodup. exact Hm.
  - exact Hl2.
  - intros j Hj. apply remove_in. split; [apply Hi; right; exact Hj|intros ->; tauto].
Qed.
Lemma linked_nodup : forall D t, inv D t -> NoDup (linked t).
Proof.
  intros D t I. unfold linked. pose proof (iln _ _ I) as N.
  assert (X : forall k k' j, k <> k' -> In j (list_of t k) -> ~ In j (list_of t k')).
  { intros k k' j Hk H1 H2. apply (ill _ _ I) in H1, H2. destruct H1 as (s & H1 & E1 & _), H2 as (s' & H2 & E2 & _). congruence. }
  assert (G : forall l r : list Z, NoDup l -> NoDup r -> (forall j, In j l -> ~ In j r) -> NoDup (l ++ r)).
  { clear. induction l as [|i l IH]; intros r Hl Hr H; cbn [app]; [exact Hr|]. apply NoDup_cons_iff in Hl. constructor.
    - rewrite in_app_iff. intros [C|C]; [tauto|]. apply (H i); [left; reflexivity|exact C].
    - apply IH; [tauto|exact Hr|]. intros j Hj. apply H. right. exact Hj. }
  apply G; [apply (N T_EST)| |].
  - apply G; [apply (N T_TRANS)|apply (N T_SYN4)|]. intros j. apply (X T_TRANS T_SYN4). discriminate.
  - intros j Hj C. apply in_app_or in C. destruct C as [C|C]; [apply (X T_EST T_TRANS j); auto; discriminate|apply (X T_EST T_SYN4 j); auto; discriminate].
Qed.

Lemma acct_refl : forall D t, acct D t D t [].
Proof. intros. split; [intros; cbn [sumz]; lia|lia]. Qed.
Lemma acct_trans : forall D t D' t' D'' t'' e e', acct D t D' t' e -> acct D' t' D'' t'' e' -> acct D t D'' t'' (e ++ e').
Proof. intros D t D' t' D'' t'' e e' [A1 A2] [B1 B2]. split; [|lia]. intros g. rewrite sumz_app. specialize (A1 g). specialize (B1 g). lia. Qed.
Lemma acct_trans0 : forall D t D' t' D'' t'' e', acct D t D' t' [] -> acct D' t' D'' t'' e' -> acct D t D'' t'' e'.
Proof. intros. change e' with ([] ++ e'). eapply acct_trans; eassumption. Qed.
Lemma acct_trans1 : forall D t D' t' D'' t'' e, acct D t D' t' e -> acct D' t' D'' t'' [] -> acct D t D'' t'' e.
Proof. intros. rewrite <- (app_nil_r e). eapply acct_trans; eassumption. Qed.

(** Nothing about stored packets changes. *)
Lemma acct_same : forall D t t', (forall f, sumz f (linked t') = sumz f (linked t)) -> queue t' = queue t -> pkts t' = pkts t ->
  (forall g j, ws g t' j = ws g t j) -> (forall i, In i D -> option_map b_sess (bibs t' i) = option_map b_sess (bibs t i)) -> acct D t D t' [].
Proof.
  intros D t t' El Eq Ep Es Eb.
  assert (W : forall g, wl g t' = wl g t /\ wq g t' = wq g t /\ wd g D t' = wd g D t).
  { intros g. unfold wl, wq, wd. split; [rewrite <- El; apply sumz_ext; intros; apply Es|]. split; [rewrite Eq; reflexivity|].
    apply sumz_ext. intros i Hi. unfold wb. specialize (Eb i Hi). destruct (bibs t' i), (bibs t i); try discriminate; [|reflexivity].
    injection Eb as ->. apply sumz_ext. intros; apply Es. }
  split; [intros g; destruct (W g) as (-> & -> & ->); cbn [sumz]; lia|]. destruct (W one) as (-> & -> & _). lia.
Qed.

Lemma detach_sessions_ok : forall l t, (forall j, In j l -> sess t j <> None) -> exists t', detach_sessions t l = Ok t' /\
  bibs t' = bibs t /\ sess t' = sess t /\ tree6 t' = tree6 t /\ tree4 t' = tree4 t /\ queue t' = queue t /\ n_bibs t' = n_bibs t /\ fresh t' = fresh t /\
  (forall k, list_of t' k = drop_ids l (list_of t k)) /\ linked t' = drop_ids l (linked t) /\
  pkts t' = pkts t - sumz (ws one t) l /\ n_sess t' = n_sess t - Z.of_nat (length l).
Proof.
  induction l as [|i l IH]; intros t H; cbn [detach_sessions].
  - exists t. repeat (split; [reflexivity|]). split; [intros; rewrite drop_nil; reflexivity|]. split; [rewrite drop_nil; reflexivity|]. cbn [sumz length]. split; lia.
  - unfold gets. assert (Hi : sess t i <> None) by (apply H; left; reflexivity). destruct (sess t i) as [s|] eqn:Es; [|congruence]. cbn [bind].
    set (t1 := set_stats _ _ _).
    assert (F : bibs t1 = bibs t /\ sess t1 = sess t /\ tree6 t1 = tree6 t /\ tree4 t1 = tree4 t /\ queue t1 = queue t /\ n_bibs t1 = n_bibs t /\ fresh t1 = fresh t /\
      l_est t1 = remove_id i (l_est t) /\ l_trans t1 = remove_id i (l_trans t) /\ l_syn4 t1 = remove_id i (l_syn4 t) /\
      n_sess t1 = n_sess t - 1 /\ pkts t1 = pkts t - ws one t i).
    { unfold t1, unlink, ws. rewrite Es. destruct (s_stored s); simp; unfold one; repeat (split; [reflexivity|]); lia. }
    destruct F as (F1 & F2 & F3 & F4 & F5 & F6 & F7 & F8 & F9 & F10 & F11 & F12).
    destruct (IH t1) as (t' & E & G1 & G2 & G3 & G4 & G5 & G6 & G7 & G8 & G9 & G10 & G11); [intros j Hj; rewrite F2; apply H; right; exact Hj|].
    exists t'. split; [exact E|]. repeat (split; [congruence|]). split; [|split].
    + intros k. rewrite G8, <- drop_cons. destruct k; cbn [list_of]; rewrite ?F8, ?F9, ?F10; reflexivity.
    + rewrite G9. unfold linked. rewrite F8, F9, F10. rewrite <- drop_cons, !remove_app. reflexivity.
    + cbn [sumz length]. rewrite G10, G11, F11, F12. rewrite (sumz_ext _ (ws one t1) (ws one t)) by (intros; unfold ws; rewrite F2; reflexivity). split; lia.
Qed.

Lemma inv_linked : forall D t i b j, inv D t -> bibs t i = Some b -> ~ In i D -> In j (b_sess b) -> In j (linked t).
Proof.
  intros D t i b j I Hb HD Hj. apply (ibs _ _ I _ _ Hb) in Hj. destruct Hj as (s & Hs & E). apply in_linked. exists (s_exp s). apply (ill _ _ I). exists s. subst i. auto.
Qed.

Lemma detach_ok : forall D t bid b, inv D t -> bibs t bid = Some b -> ~ In bid D -> exists t', detach_bib t bid = Ok t' /\
  inv (bid :: D) t' /\ acct D t (bid :: D) t' [] /\ bibs t' = bibs t /\ sess t' = sess t /\
  tree6 t' = remove_id bid (tree6 t) /\ tree4 t' = remove_id bid (tree4 t) /\ (forall k, list_of t' k = drop_ids (b_sess b) (list_of t k)) /\
  queue t' = queue t /\ fresh t' = fresh t.
Proof.
  intros D t bid b I Hb HD. unfold detach_bib.
  rewrite (erase_ok bid (tree6 t)) by (apply (in6 _ _ I); split; [congruence|exact HD]). cbn [bind].
  assert (Hi4 : In bid (tree4 t)) by (apply (in4 _ _ I); split; [congruence|exact HD]).
  rewrite (erase_ok bid (tree4 t)) by exact Hi4. cbn [bind]. unfold getb. simp. rewrite Hb. cbn [bind].
  set (t1 := set_stats _ _ _). destruct (detach_sessions_ok (b_sess b) t1) as (t' & E & G1 & G2 & G3 & G4 & G5 & G6 & G7 & G8 & G9 & G10 & G11).
  { intros j Hj. change (sess t1) with (sess t). apply (ibs _ _ I _ _ Hb) in Hj. destruct Hj as (s & -> & _). discriminate. }
  exists t'. split; [exact E|]. change (linked t1) with (linked t) in G9. change (ws one t1) with (ws one t) in G10. change (pkts t1) with (pkts t) in G10.
  unfold t1 in G1, G2, G3, G4, G5, G6, G7, G11. simp.
  assert (G8' : forall k, list_of t' k = drop_ids (b_sess b) (list_of t k)) by (intros k; rewrite G8; destruct k; reflexivity).
  assert (Nb : NoDup (b_sess b)) by (eapply srt_nodup; apply (isr _ _ I _ _ Hb)).
  assert (Hlk : forall j, In j (b_sess b) -> In j (linked t)) by (intros j; apply (inv_linked _ _ _ _ _ I Hb HD)).
  assert (Hsum : forall f, sumz f (linked t') = sumz f (linked t) - sumz f (b_sess b)) by (intros f; rewrite G9; apply drop_sum; [apply (linked_nodup _ _ I)|exact Nb|exact Hlk]).
  assert (En : NoDup (tree4 t)) by (eapply srt_nodup; apply (i4 _ _ I)).
  split; [|split; [|split; [exact G1|split; [exact G2|split; [exact G3|split; [exact G4|split; [exact G8'|split; [exact G5|exact G7]]]]]]]].
  - assert (E6 : key6 t' = key6 t) by (unfold key6; rewrite G1; reflexivity). assert (E4 : key4 t' = key4 t) by (unfold key4; rewrite G1; reflexivity).
    assert (Ek : keys t' = keys t) by (unfold keys; rewrite G2; reflexivity).
    destruct I as [J1 J2 J3 J4 J5 J6 J7 J8 J9 J10 J11 J12 J13 J14 J15 J16]. constructor.
    + rewrite E6, G3. apply srt_remove. exact J1.
    + rewrite E4, G4. apply srt_remove. exact J2.
    + intros x. rewrite G1, G3, remove_in, J3. cbn [In]. intuition congruence.
    + intros x. rewrite G1, G4, remove_in, J4. cbn [In]. intuition congruence.
    + constructor; assumption.
    + intros x [<-|Hx]; rewrite G1; [congruence|apply J6; exact Hx].
    + intros x y. rewrite G1, Ek. apply J7.
    + intros x y. rewrite G1, G2. apply J8.
    + intros j s. rewrite G1, G2. apply J9.
    + intros k. rewrite G8'. apply drop_nodup. apply J10.
    + intros k j. rewrite G8', drop_in, J11, G2. cbn [In]. split.
      * intros ((s & Hs & E1 & E2) & Nj). exists s. split; [exact Hs|]. split; [exact E1|]. intros [C|C]; [|tauto]. apply Nj. apply (J8 _ _ Hb). eauto.
      * intros (s & Hs & E1 & E2). split; [exists s; split; [exact Hs|split; [exact E1|tauto]]|]. intros C. apply (J8 _ _ Hb) in C. destruct C as (s' & Hs' & E'). apply E2. left. congruence.
    + rewrite G6, G4, J12, !length_sum. rewrite (sumz_remove _ _ _ En Hi4). lia.
    + rewrite G11, J13, !length_sum. rewrite Hsum. lia.
    + intros x. rewrite G1, G7. apply J14.
    + intros x. rewrite G2, G7. apply J15.
    + rewrite G5. exact J16.
  - assert (Ews : forall g, ws g t' = ws g t) by (intros g; unfold ws; rewrite G2; reflexivity).
    split.
    + intros g. unfold wl, wq, wd. cbn [sumz]. rewrite Ews, G5, Hsum. unfold wb at 2. rewrite G1, Hb, Ews.
      rewrite (sumz_ext _ (wb g t') (wb g t)) by (intros; unfold wb; rewrite G1, Ews; reflexivity). lia.
    + unfold wl, wq. rewrite Ews, G5, Hsum, G10. lia.
Qed.

Lemma release_sessions_ok : forall l t, NoDup l -> (forall j, In j l -> sess t j <> None) -> exists t' evs, release_sessions t l = Ok (t', evs) /\
  t' = set_sess t (sess t') /\ (forall j, sess t' j = if mem_id j l then None else sess t j) /\ (forall g, sumz (we g) evs = sumz (ws g t) l).
Proof.
  induction l as [|i l IH]; intros t Hn H; cbn [release_sessions].
  - exists t, []. split; [reflexivity|]. split; [destruct t; reflexivity|]. split; reflexivity.
  - unfold gets. assert (Hi : sess t i <> None) by (apply H; left; reflexivity). apply NoDup_cons_iff in Hn. destruct Hn as [Hn1 Hn2].
    unfold free_session. destruct (sess t i) as [s|] eqn:Es; [|congruence]. cbn [bind].
    destruct (IH (set_sess t (upd (sess t) i None))) as (t' & evs & E & G1 & G2 & G3); [exact Hn2| |].
    { intros j Hj. simp. rewrite upd_neq by (intros ->; tauto). apply H. right. exact Hj. }
    rewrite E. cbn [bind fst snd]. eexists _, _. split; [reflexivity|]. split; [rewrite G1 at 1; reflexivity|]. split.
    + intros j. rewrite G2. simp. unfold mem_id. cbn [existsb]. fold (mem_id j l). destruct (mem_id j l) eqn:Em; [rewrite orb_true_r; reflexivity|]. rewrite orb_false_r.
      unfold upd. reflexivity.
    + intros g. cbn [sumz]. unfold ws at 1. rewrite Es.
      assert (X : sumz (ws g (set_sess t (upd (sess t) i None))) l = sumz (ws g t) l).
      { apply sumz_ext. intros j Hj. unfold ws. simp. rewrite upd_neq by (intros ->; tauto). reflexivity. }
      rewrite <- X, <- G3. destruct (s_stored s); cbn [sumz we]; lia.
Qed.

Lemma release_ok : forall D t bid b, inv (bid :: D) t -> bibs t bid = Some b -> exists t' evs, release_bib_entry t bid = Ok (t', evs) /\
  inv D t' /\ acct (bid :: D) t D t' evs /\ bibs t' = upd (bibs t) bid None /\ (forall j, sess t' j = if mem_id j (b_sess b) then None else sess t j) /\
  tree6 t' = tree6 t /\ tree4 t' = tree4 t /\ (forall k, list_of t' k = list_of t k) /\ queue t' = queue t /\ fresh t' = fresh t.
Proof.
  intros D t bid b I Hb. unfold release_bib_entry, getb. rewrite Hb. cbn [bind].
  assert (Nb : NoDup (b_sess b)) by (eapply srt_nodup; apply (isr _ _ I _ _ Hb)).
  destruct (release_sessions_ok (b_sess b) t Nb) as (t1 & evs & E & G1 & G2 & G3).
  { intros j Hj. apply (ibs _ _ I _ _ Hb) in Hj. destruct Hj as (s & -> & _). discriminate. }
  rewrite E. cbn [bind fst snd]. unfold free_bib. assert (Hb1 : bibs t1 = bibs t) by (rewrite G1; reflexivity). rewrite Hb1, Hb. cbn [bind].
  set (t' := set_bibs t1 _). exists t', evs. split; [reflexivity|].
  assert (F1 : bibs t' = upd (bibs t) bid None) by reflexivity.
  assert (F2 : sess t' = sess t1) by reflexivity.
  assert (F3 : tree6 t' = tree6 t) by (unfold t'; rewrite G1; reflexivity).
  assert (F4 : tree4 t' = tree4 t) by (unfold t'; rewrite G1; reflexivity).
  assert (F5 : forall k, list_of t' k = list_of t k) by (intros k; unfold t'; rewrite G1; destruct k; reflexivity).
  assert (F6 : linked t' = linked t) by (unfold t'; rewrite G1; reflexivity).
  assert (F7 : queue t' = queue t) by (unfold t'; rewrite G1; reflexivity).
  assert (F8 : n_bibs t' = n_bibs t /\ n_sess t' = n_sess t /\ fresh t' = fresh t /\ pkts t' = pkts t) by (unfold t'; rewrite G1; auto).
  clearbody t'. destruct F8 as (F8 & F9 & F10 & F11).
  assert (Nd : ~ In bid D) by (pose proof (idn _ _ I) as H; apply NoDup_cons_iff in H; tauto).
  assert (Hs : forall j s, sess t' j = Some s <-> sess t j = Some s /\ s_bib s <> bid).
  { intros j s. rewrite F2, G2. destruct (mem_id j (b_sess b)) eqn:Em.
    - apply mem_in in Em. apply (ibs _ _ I _ _ Hb) in Em. destruct Em as (s' & Hs' & Eb). split; [discriminate|]. intros [H1 H2]. congruence.
    - apply not_true_iff_false in Em. rewrite mem_in in Em. split; [|tauto]. intros H. split; [exact H|]. intros C. apply Em. apply (ibs _ _ I _ _ Hb). eauto. }
  assert (Hws : forall g j, ~ In j (b_sess b) -> ws g t' j = ws g t j).
  { intros g j Hj. unfold ws. rewrite F2, G2. rewrite <- mem_in, not_true_iff_false in Hj. rewrite Hj. reflexivity. }
  assert (Hother : forall x y j, x <> bid -> bibs t x = Some y -> In j (b_sess y) -> ~ In j (b_sess b)).
  { intros x y j N Hy H C. apply (ibs _ _ I _ _ Hy) in H. apply (ibs _ _ I _ _ Hb) in C. destruct H as (s & H & E1), C as (s' & C & E2). congruence. }
  assert (Hlk : forall j, In j (linked t) -> ~ In j (b_sess b)).
  { intros j H C. apply in_linked in H. destruct H as [k H]. apply (ill _ _ I) in H. destruct H as (s & H & _ & E1). apply (ibs _ _ I _ _ Hb) in C. destruct C as (s' & C & E2). apply E1. left. congruence. }
  split; [|split; [|split; [exact F1|split; [rewrite F2; exact G2|split; [exact F3|split; [exact F4|split; [exact F5|split; [exact F7|exact F10]]]]]]]].
  - assert (Hl : forall x, bibs t' x <> None <-> bibs t x <> None /\ x <> bid).
    { intros x. rewrite F1. destruct (Z.eq_dec x bid) as [->|N]; [rewrite upd_eq; tauto|rewrite upd_neq by exact N; tauto]. }
    assert (H6 : forall x, In x (tree6 t) -> key6 t x = key6 t' x) by (intros x Hx; apply (in6 _ _ I) in Hx; unfold key6; rewrite F1, upd_neq by (intros ->; apply Hx; left; reflexivity); reflexivity).
    assert (H4 : forall x, In x (tree4 t) -> key4 t x = key4 t' x) by (intros x Hx; apply (in4 _ _ I) in Hx; unfold key4; rewrite F1, upd_neq by (intros ->; apply Hx; left; reflexivity); reflexivity).
    destruct I as [J1 J2 J3 J4 J5 J6 J7 J8 J9 J10 J11 J12 J13 J14 J15 J16]. constructor.
    + rewrite F3. eapply srt_ext; [exact H6|exact J1].
    + rewrite F4. eapply srt_ext; [exact H4|exact J2].
    + intros x. rewrite Hl, F3, J3. cbn [In]. intuition congruence.
    + intros x. rewrite Hl, F4, J4. cbn [In]. intuition congruence.
    + apply NoDup_cons_iff in J5. tauto.
    + intros x Hx. apply Hl. split; [apply J6; right; exact Hx|intros ->; tauto].
    + intros x y Hy. rewrite F1 in Hy. destruct (upd_cases _ _ _ _ _ _ Hy) as [[_ [=]]|[N Hy']]. eapply srt_ext; [|apply (J7 _ _ Hy')].
      intros j Hj. unfold keys. rewrite F2, G2. pose proof (Hother _ _ _ N Hy' Hj) as Hx. rewrite <- mem_in, not_true_iff_false in Hx. rewrite Hx. reflexivity.
    + intros x y Hy j. rewrite F1 in Hy. destruct (upd_cases _ _ _ _ _ _ Hy) as [[_ [=]]|[N Hy']]. rewrite (J8 _ _ Hy'). setoid_rewrite Hs.
      split; [intros (s & H1 & H2); exists s; subst x; auto|intros (s & (H1 & H2) & H3); eauto].
    + intros j s H. apply Hs in H. apply Hl. split; [apply (J9 j); apply H|apply H].
    + intros k. rewrite F5. apply J10.
    + intros k j. rewrite F5, J11. setoid_rewrite Hs. cbn [In]. split.
      * intros (s & H1 & H2 & H3). exists s. split; [split; [exact H1|]|]; [intros C; apply H3; left; congruence|tauto].
      * intros (s & (H1 & H2) & H3 & H4'). exists s. split; [exact H1|]. split; [exact H3|]. intros [C|C]; [congruence|tauto].
    + rewrite F8, F4. exact J12.
    + rewrite F9, F6. exact J13.
    + intros x Hx. rewrite F10. apply J14. apply Hl in Hx. apply Hx.
    + intros x Hx. rewrite F10. apply J15. destruct (sess t' x) eqn:Ex; [|congruence]. apply Hs in Ex. destruct Ex as [-> _]. discriminate.
    + rewrite F7. exact J16.
  - assert (Wl : forall g, wl g t' = wl g t) by (intros g; unfold wl; rewrite F6; apply sumz_ext; intros j Hj; apply Hws; apply Hlk; exact Hj).
    split.
    + intros g. rewrite Wl. unfold wq, wd. rewrite F7. cbn [sumz]. unfold wb at 1. rewrite Hb, G3.
      assert (X : sumz (wb g t') D = sumz (wb g t) D); [|lia].
      apply sumz_ext. intros x Hx. unfold wb. rewrite F1, upd_neq by (intros ->; tauto). destruct (bibs t x) as [y|] eqn:Ey; [|reflexivity].
      apply sumz_ext. intros j Hj. apply Hws. eapply Hother; [|exact Ey|exact Hj]. intros ->; tauto.
    + rewrite Wl. unfold wq. rewrite F7, F11. lia.
Qed.

(** commit_delete_list frees everything that was detached. *)
Lemma delete_list_ok : forall D t, inv D t -> exists t' evs, commit_delete_list t D = Ok (t', evs) /\
  inv [] t' /\ acct D t [] t' evs /\ (forall i, bibs t' i = if mem_id i D then None else bibs t i) /\
  (forall j s, sess t' j = Some s <-> sess t j = Some s /\ ~ In (s_bib s) D) /\
  tree6 t' = tree6 t /\ tree4 t' = tree4 t /\ (forall k, list_of t' k = list_of t k) /\ queue t' = queue t /\ fresh t' = fresh t.
Proof.
  induction D as [|bid D IH]; intros t I; cbn [commit_delete_list].
  - exists t, []. split; [reflexivity|]. split; [exact I|]. split; [apply acct_refl|]. split; [reflexivity|]. split; [intros; split; [intros H; split; [exact H|intros []]|tauto]|]. repeat split.
  - destruct (bibs t bid) as [b|] eqn:Hb; [|exfalso; apply (idl _ _ I bid); [left; reflexivity|exact Hb]].
    destruct (release_ok _ _ _ _ I Hb) as (t1 & e1 & E1 & I1 & A1 & G1 & G2 & G3 & G4 & G5 & G6 & G7). rewrite E1. cbn [bind fst snd].
    destruct (IH _ I1) as (t2 & e2 & E2 & I2 & A2 & H1 & H2 & H3 & H4 & H5 & H6 & H7). rewrite E2. cbn [bind fst snd].
    eexists _, _. split; [reflexivity|]. split; [exact I2|]. split; [eapply acct_trans; eassumption|]. split.
    { intros i. rewrite H1, G1. unfold mem_id. cbn [existsb]. fold (mem_id i D). unfold upd. destruct (i =? bid); destruct (mem_id i D); reflexivity. }
    split; [|split; [congruence|split; [congruence|split; [intros k; rewrite H5; apply G5|split; congruence]]]].
    intros j s. rewrite H2. rewrite G2. cbn [In]. destruct (mem_id j (b_sess b)) eqn:Em.
    + apply mem_in in Em. apply (ibs _ _ I _ _ Hb) in Em. destruct Em as (s' & Hs' & Eb). split; [intros [[=] _]|]. intros [Hs C]. exfalso. apply C. left. congruence.
    + apply not_true_iff_false in Em. rewrite mem_in in Em. split; [|tauto]. intros [Hs C]. split; [exact Hs|]. intros [E|E]; [|tauto]. apply Em. apply (ibs _ _ I _ _ Hb). eauto.
Qed.
