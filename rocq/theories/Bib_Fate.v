(** Sessions change state, change list, expire. *)
Require Import Verif.Base Verif.Addr_Model Verif.Rtrie_Model Verif.Pool4_Model Verif.Fsm_Model Verif.Bib_Model
  Verif.Rbtree_Model Verif.Rbtree_Properties Verif.Bib_Inv Verif.Bib_Steps.
From Coq Require Import Sorting.Sorted.
Local Ltac Zify.zify_post_hook ::= idtac.

(** A session that is in the tables. *)
Definition live (D : list Z) (t : tb) (i : Z) (s : tsess) : Prop := sess t i = Some s /\ ~ In (s_bib s) D.

Lemma live_list : forall D t i s, inv D t -> live D t i s -> In i (list_of t (s_exp s)).
Proof. intros D t i s I [Hs HD]. apply (ill _ _ I). eauto. Qed.
Lemma live_linked : forall D t i s, inv D t -> live D t i s -> In i (linked t).
Proof. intros. apply in_linked. eexists. eapply live_list; eassumption. Qed.
Lemma live_bib : forall D t i s, inv D t -> live D t i s -> exists b, bibs t (s_bib s) = Some b /\ In i (b_sess b) /\ In (s_bib s) (tree4 t).
Proof.
  intros D t i s I [Hs HD]. pose proof (isb _ _ I _ _ Hs) as H. destruct (bibs t (s_bib s)) as [b|] eqn:E; [|congruence]. exists b.
  split; [reflexivity|]. split; [apply (ibs _ _ I _ _ E); eauto|apply (in4 _ _ I); split; [congruence|exact HD]].
Qed.
Lemma live_notin : forall D t i s x b, inv D t -> live D t i s -> In x D -> bibs t x = Some b -> ~ In i (b_sess b).
Proof. intros D t i s x b I [Hs HD] Hx Hb C. apply (ibs _ _ I _ _ Hb) in C. destruct C as (s' & Hs' & E). assert (s' = s) by congruence. subst. tauto. Qed.

(** Rewriting a session: [s'] differs in state, time, stored packet. *)
Lemma wl_put : forall D t i s s' g, inv D t -> live D t i s ->
  wl g (put_sess t i s') = wl g t - ws g t i + match s_stored s' with Some k => g k | None => 0 end.
Proof.
  intros D t i s s' g I L. unfold wl. change (linked (put_sess t i s')) with (linked t).
  destruct (remove_split i (linked t)) as (a & b & E & _ & Na & Nb); [eapply live_linked; eassumption|eapply linked_nodup; exact I|].
  rewrite E, !sumz_app. cbn [sumz]. rewrite ws_put.
  rewrite (sumz_ext _ (ws g (put_sess t i s')) (ws g t) a), (sumz_ext _ (ws g (put_sess t i s')) (ws g t) b); [lia| |];
    intros j Hj; apply ws_put_neq; intros ->; tauto.
Qed.
Lemma wd_put : forall D t i s s' g, inv D t -> live D t i s -> wd g D (put_sess t i s') = wd g D t.
Proof.
  intros D t i s s' g I L. unfold wd. apply sumz_ext. intros x Hx. unfold wb. change (bibs (put_sess t i s')) with (bibs t).
  destruct (bibs t x) as [b|] eqn:Hb; [|reflexivity]. apply sumz_ext. intros j Hj. apply ws_put_neq. intros ->.
  exact (live_notin _ _ _ _ _ _ I L Hx Hb Hj).
Qed.
Lemma acct_put_same : forall D t i s s', inv D t -> live D t i s -> s_stored s' = s_stored s -> acct D t D (put_sess t i s') [].
Proof.
  intros D t i s s' I L E. assert (W : forall g, wl g (put_sess t i s') = wl g t).
  { intros g. rewrite (wl_put _ _ _ _ s' g I L). unfold ws. rewrite (proj1 L), E. lia. }
  split; [intros g; rewrite W, (wd_put _ _ _ _ s' g I L); cbn [sumz]; unfold wq; simp; lia|]. rewrite W. unfold wq. simp. lia.
Qed.
Lemma acct_take : forall D t i s s' k, inv D t -> live D t i s -> s_stored s = Some k -> s_stored s' = None ->
  (forall e, (forall g, we g e = g k) -> acct D t D (set_pkts (put_sess t i s') (pkts t - 1)) [e]).
Proof.
  intros D t i s s' k I L Ek E' e He. assert (W : forall g, wl g (set_pkts (put_sess t i s') (pkts t - 1)) = wl g t - g k).
  { intros g. change (wl g (set_pkts (put_sess t i s') (pkts t - 1))) with (wl g (put_sess t i s')). rewrite (wl_put _ _ _ _ s' g I L). unfold ws. rewrite (proj1 L), Ek, E'. lia. }
  split.
  - intros g. rewrite W. change (wd g D (set_pkts (put_sess t i s') (pkts t - 1))) with (wd g D (put_sess t i s')). rewrite (wd_put _ _ _ _ s' g I L). cbn [sumz]. rewrite He. unfold wq. simp. lia.
  - rewrite W. unfold wq, one. simp. lia.
Qed.

(** What an operation on session [i] leaves alone. *)
Record kept (t t' : tb) (i : Z) (s' : tsess) : Prop := Kept {
  k_bibs : bibs t' = bibs t;
  k_sess : forall j, sess t' j = if j =? i then Some s' else sess t j;
  k_t6 : tree6 t' = tree6 t; k_t4 : tree4 t' = tree4 t;
  k_q : queue t' = queue t; k_f : fresh t' = fresh t }.

Lemma kept_put : forall t i s', kept t (put_sess t i s') i s'.
Proof. intros. constructor; try reflexivity. Qed.
Lemma kept_trans : forall t t1 t2 i s1 s2, kept t t1 i s1 -> kept t1 t2 i s2 -> kept t t2 i s2.
Proof.
  intros t t1 t2 i s1 s2 [A1 A2 A3 A4 A5 A6] [B1 B2 B3 B4 B5 B6]. constructor; try congruence.
  intros j. rewrite B2, A2. destruct (j =? i); reflexivity.
Qed.

Lemma kill_ok : forall D t i s, inv D t -> live D t i s -> exists t' evs, kill_stored_pkt t i = Ok (t', evs) /\
  inv D t' /\ acct D t D t' evs /\ kept t t' i (set_stored s None) /\ (forall k, list_of t' k = list_of t k).
Proof.
  intros D t i s I L. unfold kill_stored_pkt, gets. rewrite (proj1 L). cbn [bind]. destruct (s_stored s) as [k|] eqn:Ek.
  - eexists _, _. split; [reflexivity|]. split; [apply inv_pkts; eapply inv_put_same; [exact I|apply L|reflexivity..]|].
    split; [eapply acct_take; [exact I|exact L|exact Ek|reflexivity|reflexivity]|]. split; [constructor; reflexivity|intros []; reflexivity].
  - eexists _, _. split; [reflexivity|]. split; [exact I|]. split; [apply acct_refl|]. split; [|reflexivity].
    constructor; try reflexivity. intros j. destruct (j =? i) eqn:E; [|reflexivity]. assert (j = i) by lia. subst. rewrite (proj1 L).
    destruct s; unfold set_stored; cbn in *. subst. reflexivity.
Qed.

Lemma probe_ok : forall D t i s probes e al, inv D t -> live D t i s -> exists t' evs al', handle_probe t i probes e al = Ok (t', evs, al') /\
  inv D t' /\ acct D t D t' evs /\ kept t t' i (set_stored s None) /\ (forall k, list_of t' k = list_of t k).
Proof.
  intros D t i s probes e al I L. unfold handle_probe. destruct (if probes then draw_alloc al else (false, al)) as [a al']. destruct a.
  - unfold gets. rewrite (proj1 L). cbn [bind]. destruct (s_stored s) as [k|] eqn:Ek.
    + eexists _, _, _. split; [reflexivity|]. split; [apply inv_pkts; eapply inv_put_same; [exact I|apply L|reflexivity..]|].
      split; [eapply acct_take; [exact I|exact L|exact Ek|reflexivity|reflexivity]|]. split; [constructor; reflexivity|intros []; reflexivity].
    + eexists _, _, _. split; [reflexivity|]. split; [exact I|]. split.
      { split; [intros g; cbn [sumz we]; lia|lia]. }
      split; [|reflexivity]. constructor; try reflexivity. intros j. destruct (j =? i) eqn:E; [|reflexivity]. assert (j = i) by lia. subst. rewrite (proj1 L).
      destruct s; unfold set_stored; cbn in *. subst. reflexivity.
  - destruct (kill_ok _ _ _ _ I L) as (t' & evs & E & H). rewrite E. cbn [bind fst snd]. eexists _, _, _. split; [reflexivity|exact H].
Qed.

Lemma live_kept : forall D t t' i s s', live D t i s -> kept t t' i s' -> s_bib s' = s_bib s -> live D t' i s'.
Proof. intros D t t' i s s' [Hs HD] K E. split; [rewrite (k_sess _ _ _ _ K), Z.eqb_refl; reflexivity|congruence]. Qed.

(** Moving to the end of a list. *)
Lemma timer_ok : forall D t i s k now, inv D t -> live D t i s -> k <> T_BAD -> exists t', handle_fate_timer t i k now = Ok t' /\
  inv D t' /\ acct D t D t' [] /\ kept t t' i (set_timer s now k) /\
  (forall k', list_of t' k' = if same_timer k k' then remove_id i (list_of t k) ++ [i] else remove_id i (list_of t k')).
Proof.
  intros D t i s k now I L Hk. unfold handle_fate_timer, gets. rewrite (proj1 L). cbn [bind].
  set (t1 := unlink (put_sess t i (set_timer s now k)) i).
  assert (E : set_list t1 k (list_of t1 k ++ [i]) = put_sess (set_list (unlink t i) k (insert_at (length (remove_id i (list_of t k))) i (remove_id i (list_of t k)))) i (set_timer s now k)).
  { rewrite insert_end. unfold t1. rewrite list_unlink, list_put. destruct k; reflexivity. }
  rewrite E. eexists. split; [reflexivity|]. set (t' := put_sess _ i _).
  assert (K : kept t t' i (set_timer s now k)) by (constructor; unfold t'; destruct k; reflexivity).
  split; [eapply inv_relist; [exact I|apply L|apply L|reflexivity..|exact Hk]|]. split; [|split; [exact K|]].
  - apply acct_same.
    + intros f. unfold t'. change (linked (put_sess (set_list (unlink t i) k (insert_at (length (remove_id i (list_of t k))) i (remove_id i (list_of t k)))) i (set_timer s now k))) with
        (linked (set_list (unlink t i) k (insert_at (length (remove_id i (list_of t k))) i (remove_id i (list_of t k))))).
      rewrite linked_set by exact Hk. rewrite list_unlink, insert_sum. rewrite (linked_unlink _ t i (s_exp s)); [lia|apply (iln _ _ I)|eapply live_list; eassumption|].
      eapply one_list; [exact I|apply L].
    + apply (k_q _ _ _ _ K).
    + unfold t'. destruct k; reflexivity.
    + intros g j. unfold ws. rewrite (k_sess _ _ _ _ K). destruct (j =? i) eqn:Ej; [|reflexivity]. assert (j = i) by lia. subst. rewrite (proj1 L). reflexivity.
    + intros x _. rewrite (k_bibs _ _ _ _ K). reflexivity.
  - intros k'. unfold t'. rewrite list_put, list_set', list_unlink by exact Hk. rewrite insert_end. reflexivity.
Qed.

Lemma before_newer_ok : forall t time l n, (n <= length l)%nat -> (forall j, In j l -> sess t j <> None) -> exists m, before_newer t time l n = Ok m /\ (m <= n)%nat /\
  (forall x j s, (m <= x < n)%nat -> nth_error l x = Some j -> sess t j = Some s -> time <= s_time s) /\
  (forall j s, (0 < m)%nat -> nth_error l (pred m) = Some j -> sess t j = Some s -> s_time s < time).
Proof.
  intros t time l. induction n as [|n IH]; intros Hn Hl; cbn [before_newer].
  - exists 0%nat. split; [reflexivity|]. split; [lia|]. split; intros; lia.
  - destruct (nth_error l n) as [j|] eqn:Ej; [|apply nth_error_None in Ej; lia]. unfold gets.
    assert (Hj : sess t j <> None) by (apply Hl; eapply nth_error_In; exact Ej). destruct (sess t j) as [o|] eqn:Eo; [|congruence]. cbn [bind].
    destruct (s_time o <? time) eqn:Et.
    + exists (S n). split; [reflexivity|]. split; [lia|]. split; [intros; lia|]. cbn [pred]. intros j' s _ H1 H2. assert (j' = j) by congruence. subst. assert (s = o) by congruence. subst. lia.
    + destruct (IH ltac:(lia) Hl) as (m & E & H1 & H2 & H3). exists m. split; [exact E|]. split; [lia|]. split; [|exact H3].
      intros x j' s Hx H4 H5. destruct (Nat.eq_dec x n) as [->|N]; [|apply (H2 x j' s); auto; lia]. assert (j' = j) by congruence. subst. assert (s = o) by congruence. subst. lia.
Qed.

(** Moving by time. *)
Lemma unsorted_ok : forall D t i s k, inv D t -> live D t i s -> exists o, queue_unsorted_session t i s k true = Ok o /\
  match o with
  | None => k = T_BAD
  | Some t' => k <> T_BAD /\ inv D t' /\ acct D t D t' [] /\
      kept t t' i (TS (s_dst6 s) (s_dst4 s) (s_state s) (s_bib s) (s_time s) k (s_stored s)) /\
      exists n, (n <= length (list_of t k))%nat /\
      (forall x j s', (n <= x)%nat -> nth_error (list_of t k) x = Some j -> sess t j = Some s' -> s_time s <= s_time s') /\
      (forall j s', (0 < n)%nat -> nth_error (list_of t k) (pred n) = Some j -> sess t j = Some s' -> s_time s' < s_time s) /\
      (forall k', list_of t' k' = if same_timer k k' then remove_id i (firstn n (list_of t k)) ++ i :: remove_id i (skipn n (list_of t k)) else remove_id i (list_of t k'))
  end.
Proof.
  intros D t i s k I L. unfold queue_unsorted_session.
  assert (Hl : forall j, In j (list_of t k) -> sess t j <> None) by (intros j Hj; apply (ill _ _ I) in Hj; destruct Hj as (x & -> & _); discriminate).
  destruct (before_newer_ok t (s_time s) (list_of t k) (length (list_of t k)) (le_n _) Hl) as (n & E & Hn & Ha & Hb).
  destruct (match k with T_BAD => true | _ => false end) eqn:Hk.
  { destruct k; try discriminate. eexists. split; [reflexivity|]. reflexivity. }
  assert (Hk' : k <> T_BAD) by (intros ->; discriminate).
  set (s' := TS (s_dst6 s) (s_dst4 s) (s_state s) (s_bib s) (s_time s) k (s_stored s)).
  set (t' := put_sess (set_list (unlink t i) k (remove_id i (firstn n (list_of t k)) ++ i :: remove_id i (skipn n (list_of t k)))) i s').
  exists (Some t'). split.
  { destruct k; try congruence; rewrite E; reflexivity. }
  assert (El : remove_id i (firstn n (list_of t k)) ++ i :: remove_id i (skipn n (list_of t k)) =
    insert_at (length (remove_id i (firstn n (list_of t k)))) i (remove_id i (list_of t k))).
  { unfold insert_at. rewrite <- (firstn_skipn n (list_of t k)) at 4 6. rewrite remove_app.
    rewrite firstn_app, firstn_all, Nat.sub_diag, skipn_app, skipn_all, Nat.sub_diag. cbn [firstn skipn app]. rewrite app_nil_r. reflexivity. }
  assert (K : kept t t' i s') by (constructor; unfold t'; destruct k; reflexivity).
  split; [exact Hk'|]. split; [unfold t'; rewrite El; eapply inv_relist; [exact I|apply L|apply L|reflexivity..|exact Hk']|]. split; [|split; [exact K|]].
  - apply acct_same.
    + intros f. unfold t'. rewrite El. set (l' := insert_at _ _ _). change (linked (put_sess (set_list (unlink t i) k l') i s')) with (linked (set_list (unlink t i) k l')).
      rewrite linked_set by exact Hk'. unfold l'. rewrite list_unlink, insert_sum. rewrite (linked_unlink _ t i (s_exp s)); [lia|apply (iln _ _ I)|eapply live_list; eassumption|].
      eapply one_list; [exact I|apply L].
    + apply (k_q _ _ _ _ K).
    + unfold t'. destruct k; reflexivity.
    + intros g j. unfold ws. rewrite (k_sess _ _ _ _ K). destruct (j =? i) eqn:Ej; [|reflexivity]. assert (j = i) by lia. subst. rewrite (proj1 L). reflexivity.
    + intros x _. rewrite (k_bibs _ _ _ _ K). reflexivity.
  - exists n. split; [exact Hn|]. split; [|split; [exact Hb|]].
    + intros x j s0 Hx Hj Hs. apply (Ha x j s0); auto. split; [exact Hx|]. apply nth_error_Some. congruence.
    + intros k'. unfold t'. rewrite list_put, list_set', list_unlink by exact Hk'. reflexivity.
Qed.

(** rm *)
Record gone (t t' : tb) (i : Z) (bid : Z) : Prop := Gone {
  g_sess : forall j, sess t' j = if j =? i then None else sess t j;
  g_lists : forall k, list_of t' k = remove_id i (list_of t k);
  g_bibs : forall x, x <> bid -> bibs t' x = bibs t x;
  g_bib : forall b, bibs t bid = Some b ->
    (bibs t' bid = Some (with_sess b (remove_id i (b_sess b))) /\ tree4 t' = tree4 t /\ tree6 t' = tree6 t /\ (b_static b = true \/ remove_id i (b_sess b) <> [])) \/
    (bibs t' bid = None /\ tree4 t' = remove_id bid (tree4 t) /\ tree6 t' = remove_id bid (tree6 t) /\ b_static b = false /\ remove_id i (b_sess b) = []);
  g_q : queue t' = queue t; g_f : fresh t' = fresh t }.

Lemma del_sess_acct : forall D t i s b, inv D t -> live D t i s -> bibs t (s_bib s) = Some b -> s_stored s = None -> acct D t D (del_sess t i s b) [].
Proof.
  intros D t i s b I L Hb Es. assert (W : forall g, wl g (del_sess t i s b) = wl g t).
  { intros g. unfold wl. change (linked (del_sess t i s b)) with (linked (unlink t i)).
    rewrite (sumz_ext _ (ws g (del_sess t i s b)) (ws g t)).
    - rewrite (linked_unlink _ t i (s_exp s)); [unfold ws at 2; rewrite (proj1 L), Es; lia|apply (iln _ _ I)|eapply live_list; eassumption|eapply one_list; [exact I|apply L]].
    - intros j Hj. apply in_linked in Hj. destruct Hj as [k Hj]. rewrite list_unlink, remove_in in Hj. unfold ws, del_sess. simp. rewrite upd_neq by apply Hj. reflexivity. }
  assert (Wd : forall g, wd g D (del_sess t i s b) = wd g D t).
  { intros g. unfold wd. apply sumz_ext. intros x Hx. unfold wb, del_sess, unlink. simp. rewrite upd_neq by (intros ->; apply (proj2 L); exact Hx).
    destruct (bibs t x) as [y|] eqn:Hy; [|reflexivity]. apply sumz_ext. intros j Hj. unfold ws. simp. rewrite upd_neq; [reflexivity|]. intros ->. exact (live_notin _ _ _ _ _ _ I L Hx Hy Hj). }
  split; [intros g; rewrite W, Wd; unfold wq, del_sess, unlink; simp; cbn [sumz]; lia|]. rewrite W. unfold wq, del_sess, unlink; simp; lia.
Qed.
Lemma del_bib_acct : forall D t i b, bibs t i = Some b -> b_sess b = [] -> ~ In i D -> acct D t D (del_bib t i) [].
Proof.
  intros D t i b Hb He Hd. apply acct_same; try reflexivity. intros x Hx. unfold del_bib. simp. rewrite upd_neq by (intros ->; tauto). reflexivity.
Qed.

Lemma rm_tail : forall D t i s b, inv D t -> live D t i s -> bibs t (s_bib s) = Some b -> s_stored s = None ->
  exists t', (let! l := erase i (b_sess b) in
  let b := with_sess b l in
  let t := unlink (put_bib t (s_bib s) b) i in
  let! t := free_session t i in
  let t := set_stats t (n_bibs t) (n_sess t - 1) in
  if negb (b_static b) && match l with [] => true | _ => false end then
    let! a6 := erase (s_bib s) (tree6 t) in
    let! a4 := erase (s_bib s) (tree4 t) in
    let! t := free_bib (set_trees t a6 a4) (s_bib s) in
    Ok (set_stats t (n_bibs t - 1) (n_sess t))
  else Ok t) = Ok t' /\ inv D t' /\ acct D t D t' [] /\ gone t t' i (s_bib s).
Proof.
  intros D t i s b I L Hb Es. destruct (live_bib _ _ _ _ I L) as (b' & Hb' & Hi & Ht4). assert (b' = b) by congruence. subst b'.
  rewrite (erase_ok _ _ Hi). cbn [bind]. unfold free_session, unlink. simp. rewrite (proj1 L). cbn [bind]. simp.
  match goal with |- exists t', (if _ then _ else Ok ?T) = _ /\ _ => change T with (del_sess t i s b) end.
  pose proof (inv_del_sess _ _ _ _ _ I (proj1 L) (proj2 L) Hb) as I1. pose proof (del_sess_acct _ _ _ _ _ I L Hb Es) as A1.
  assert (G0 : bibs (del_sess t i s b) (s_bib s) = Some (with_sess b (remove_id i (b_sess b)))) by (unfold del_sess, unlink; simp; rewrite upd_eq; reflexivity).
  assert (Gx : forall x, x <> s_bib s -> bibs (del_sess t i s b) x = bibs t x) by (intros x N; unfold del_sess, unlink; simp; rewrite upd_neq by exact N; reflexivity).
  destruct (negb (b_static b) && match remove_id i (b_sess b) with [] => true | _ => false end) eqn:Eg.
  - apply andb_prop in Eg. destruct Eg as [Eg1 Eg2]. apply negb_true_iff in Eg1.
    assert (El : remove_id i (b_sess b) = []) by (destruct (remove_id i (b_sess b)); [reflexivity|discriminate]).
    assert (Ht6 : In (s_bib s) (tree6 t)) by (apply (in6 _ _ I); split; [congruence|apply L]).
    rewrite (erase_ok _ _ Ht6). cbn [bind]. rewrite (erase_ok _ _ Ht4). cbn [bind].
    unfold free_bib. simp. first [rewrite upd_eq|rewrite G0]. cbn [bind]. simp.
    match goal with |- exists t', Ok ?T = _ /\ _ => change T with (del_bib (del_sess t i s b) (s_bib s)) end.
    eexists. split; [reflexivity|]. split; [eapply inv_del_bib; [exact I1|exact G0|exact El|apply L]|].
    split; [eapply acct_trans0; [exact A1|eapply del_bib_acct; [exact G0|exact El|apply L]]|].
    constructor; try reflexivity.
    + intros []; reflexivity.
    + intros x N. unfold del_bib. simp. rewrite upd_neq by exact N. apply Gx. exact N.
    + intros b0 Hb0. assert (b0 = b) by congruence. subst. right. unfold del_bib. simp. rewrite upd_eq. auto.
  - eexists. split; [reflexivity|]. split; [exact I1|]. split; [exact A1|]. constructor; try reflexivity.
    + intros []; reflexivity.
    + exact Gx.
    + intros b0 Hb0. assert (b0 = b) by congruence. subst. left. split; [exact G0|]. split; [reflexivity|]. split; [reflexivity|].
      destruct (b_static b); [left; reflexivity|]. right. intros C. rewrite C in Eg. discriminate.
Qed.

Lemma gone_kept : forall t t1 t2 i bid s1, kept t t1 i s1 -> (forall k, list_of t1 k = list_of t k) -> gone t1 t2 i bid -> gone t t2 i bid.
Proof.
  intros t t1 t2 i bid s1 [A1 A2 A3 A4 A5 A6] Al [B1 B2 B3 B4 B5 B6]. constructor; try congruence.
  - intros j. rewrite B1, A2. destruct (j =? i); reflexivity.
  - intros x N. rewrite B3, A1 by exact N. reflexivity.
  - intros b Hb. rewrite <- A1 in Hb. specialize (B4 _ Hb). rewrite A3, A4 in B4. exact B4.
Qed.

Lemma rm_ok : forall D t i s probes e al, inv D t -> live D t i s -> exists t' evs al', rm t i probes e al = Ok (t', evs, al') /\
  inv D t' /\ acct D t D t' evs /\ gone t t' i (s_bib s).
Proof.
  intros D t i s probes e al I L. unfold rm, gets. rewrite (proj1 L). cbn [bind].
  assert (P : exists t1 evs al1, match s_stored s with Some _ => handle_probe t i probes e al | None => Ok (t, [], al) end = Ok (t1, evs, al1) /\
    inv D t1 /\ acct D t D t1 evs /\ kept t t1 i (set_stored s None) /\ (forall k, list_of t1 k = list_of t k)).
  { destruct (s_stored s) as [k|] eqn:Ek; [apply probe_ok; assumption|]. eexists _, _, _. split; [reflexivity|]. split; [exact I|]. split; [apply acct_refl|]. split; [|reflexivity].
    constructor; try reflexivity. intros j. destruct (j =? i) eqn:E; [|reflexivity]. assert (j = i) by lia. subst. rewrite (proj1 L).
    destruct s; unfold set_stored; cbn in *. subst. reflexivity. }
  destruct P as (t1 & evs & al1 & E & I1 & A1 & K & Hl). rewrite E. cbn [bind].
  pose proof (live_kept _ _ _ _ _ _ L K eq_refl) as L1. destruct (live_bib _ _ _ _ I1 L1) as (b & Hb & _). simp.
  unfold getb. rewrite Hb. cbn [bind]. destruct (rm_tail _ _ _ _ _ I1 L1 Hb eq_refl) as (t' & Et & I2 & A2 & G). simp.
  destruct (erase i (b_sess b)) as [l| |]; cbn [bind] in *; [|discriminate..].
  destruct (free_session _ i) as [t2| |]; cbn [bind] in *; [|discriminate..]. simp.
  exists t', evs, al1. split; [|split; [exact I2|split; [eapply acct_trans1; eassumption|eapply gone_kept; eassumption]]].
  destruct (negb (b_static b) && match l with [] => true | _ => false end); [|injection Et as <-; reflexivity].
  destruct (erase _ (tree6 t2)) as [x6| |]; cbn [bind] in *; [|discriminate..]. destruct (erase _ (tree4 t2)) as [x4| |]; cbn [bind] in *; [|discriminate..].
  destruct (free_bib _ _) as [t3| |]; cbn [bind] in *; [|discriminate..]. injection Et as <-. reflexivity.
Qed.

(** decide_fate *)
Definition entry_of (c : cfg) (p : proto) (b : tbib) (s : tsess) : sentry :=
  SE (b_src6 b) (s_dst6 s) (b_src4 b) (s_dst4 s) (s_state s) (s_exp s) (s_time s) (get_timeout c p (s_exp s))
     (match s_stored s with Some _ => true | None => false end).
Definition after (s : tsess) (e : sentry) (time : Z) (k : timer) (st : option Z) : tsess :=
  TS (s_dst6 s) (s_dst4 s) (e_state e) (s_bib s) time k st.
Definition at_end (t t' : tb) (i : Z) (k : timer) : Prop :=
  forall k', list_of t' k' = if same_timer k k' then remove_id i (list_of t k) ++ [i] else remove_id i (list_of t k').
Definition by_time (t t' : tb) (i : Z) (time : Z) (k : timer) : Prop :=
  exists n, (n <= length (list_of t k))%nat /\
  (forall x j s', (n <= x)%nat -> nth_error (list_of t k) x = Some j -> j <> i -> sess t j = Some s' -> time <= s_time s') /\
  (forall j s', (0 < n)%nat -> nth_error (list_of t k) (pred n) = Some j -> sess t j = Some s' -> j <> i /\ s_time s' < time) /\
  (forall k', list_of t' k' = if same_timer k k' then remove_id i (firstn n (list_of t k)) ++ i :: remove_id i (skipn n (list_of t k)) else remove_id i (list_of t k')).
Definition still (t t' : tb) : Prop := forall k, list_of t' k = list_of t k.

Definition fate_done (t t' : tb) (i : Z) (s : tsess) (e : sentry) (f : fate) (now : Z) : Prop :=
  let st := if e_stored e then s_stored s else None in
  match f with
  | FATE_TIMER_EST => kept t t' i (after s e now T_EST st) /\ at_end t t' i T_EST
  | FATE_TIMER_TRANS => kept t t' i (after s e now T_TRANS st) /\ at_end t t' i T_TRANS
  | FATE_PROBE => kept t t' i (after s e now T_TRANS None) /\ at_end t t' i T_TRANS
  | FATE_RM => gone t t' i (s_bib s)
  | FATE_PRESERVE | FATE_DROP => kept t t' i (after s e (e_time e) (s_exp s) st) /\ still t t'
  | FATE_TIMER_SLOW =>
    if same_timer T_BAD (e_timer e) then kept t t' i (after s e (e_time e) (s_exp s) st) /\ still t t'
    else kept t t' i (after s e (e_time e) (e_timer e) st) /\ by_time t t' i (e_time e) (e_timer e)
  end.

Lemma still_at_end : forall t t1 t2 i k, still t t1 -> at_end t1 t2 i k -> at_end t t2 i k.
Proof. intros t t1 t2 i k H1 H2 k'. rewrite H2, !H1. reflexivity. Qed.

Lemma decide_ok : forall D c p t cb i s probes now al, inv D t -> live D t i s ->
  exists ok t' evs al' b, decide_fate c p t cb i probes now al = Ok (ok, t', evs, al') /\ inv D t' /\ acct D t D t' evs /\
    bibs t (s_bib s) = Some b /\ In i (b_sess b) /\
    ok = (match snd (cb (entry_of c p b s)) with FATE_DROP => false | _ => true end) /\
    fate_done t t' i s (fst (cb (entry_of c p b s))) (snd (cb (entry_of c p b s))) now.
Proof.
  intros D c p t cb i s probes now al I L. unfold decide_fate, gets. rewrite (proj1 L). cbn [bind].
  destruct (live_bib _ _ _ _ I L) as (b & Hb & Hi & _). unfold tstose, getb. rewrite Hb. cbn [bind]. fold (entry_of c p b s).
  destruct (cb (entry_of c p b s)) as [e f] eqn:Ecb.
  match goal with |- exists ok t' evs al' b', ?R = _ /\ _ => 
    assert (G : exists ok t' evs al', R = Ok (ok, t', evs, al') /\ inv D t' /\ acct D t D t' evs /\ ok = (match f with FATE_DROP => false | _ => true end) /\ fate_done t t' i s e f now);
    [|destruct G as (ok & t' & evs & al' & G1 & G2 & G3 & G4 & G5); exists ok, t', evs, al', b; rewrite Ecb; cbn [fst snd]; auto 10] end.
  set (s1 := set_cb s e). set (t1 := put_sess t i s1).
  assert (I1 : inv D t1) by (eapply inv_put_same; [exact I|apply L|reflexivity..]).
  assert (K1 : kept t t1 i s1) by apply kept_put.
  assert (A1 : acct D t D t1 []) by (eapply acct_put_same; [exact I|exact L|reflexivity]).
  pose proof (live_kept _ _ _ _ _ _ L K1 eq_refl) as L1.
  set (s2 := set_stored s1 (if e_stored e then s_stored s else None)).
  assert (P : exists t2 evs, (if e_stored e then Ok (t1, []) else kill_stored_pkt t1 i) = Ok (t2, evs) /\ inv D t2 /\ acct D t D t2 evs /\ kept t t2 i s2 /\ still t t2).
  { destruct (e_stored e) eqn:Est.
    - eexists _, _. split; [reflexivity|]. split; [exact I1|]. split; [exact A1|]. split; [exact K1|]. intros []; reflexivity.
    - destruct (kill_ok _ _ _ _ I1 L1) as (t2 & evs & E & I2 & A2 & K2 & S2). exists t2, evs. split; [exact E|]. split; [exact I2|].
      split; [eapply acct_trans0; eassumption|]. split; [eapply kept_trans; eassumption|]. intros k. rewrite S2. destruct k; reflexivity. }
  destruct P as (t2 & evs & E & I2 & A2 & K2 & S2). rewrite E. cbn [bind].
  pose proof (live_kept _ _ _ _ _ _ L K2 eq_refl) as L2.
  assert (Tm : forall k, k <> T_BAD -> exists t', handle_fate_timer t2 i k now = Ok t' /\ inv D t' /\ acct D t D t' evs /\
    kept t t' i (after s e now k (if e_stored e then s_stored s else None)) /\ at_end t t' i k).
  { intros k Hk. destruct (timer_ok _ _ _ _ k now I2 L2 Hk) as (t' & E' & I' & A' & K' & N'). exists t'. split; [exact E'|]. split; [exact I'|].
    split; [eapply acct_trans1; eassumption|]. split; [eapply kept_trans; eassumption|]. eapply still_at_end; [exact S2|exact N']. }
  unfold fate_done. destruct f.
  - destruct (Tm T_EST) as (t' & E' & I' & A' & K' & N'); [discriminate|]. rewrite E'. cbn [bind]. do 4 eexists. do 4 (split; [first [reflexivity|eassumption]|]). split; assumption.
  - destruct (Tm T_TRANS) as (t' & E' & I' & A' & K' & N'); [discriminate|]. rewrite E'. cbn [bind]. do 4 eexists. do 4 (split; [first [reflexivity|eassumption]|]). split; assumption.
  - destruct (rm_ok _ _ _ _ probes e al I2 L2) as (t' & ev' & al' & E' & I' & A' & G'). rewrite E'. cbn [bind]. do 4 eexists.
    split; [reflexivity|]. split; [exact I'|]. split; [eapply acct_trans; eassumption|]. split; [reflexivity|].
    eapply gone_kept; eassumption.
  - do 4 eexists. split; [reflexivity|]. split; [exact I2|]. split; [exact A2|]. split; [reflexivity|]. split; assumption.
  - destruct (probe_ok _ _ _ _ probes e al I2 L2) as (t3 & ev' & al' & E' & I' & A' & K' & S'). rewrite E'. cbn [bind].
    pose proof (live_kept _ _ _ _ _ _ L2 K' eq_refl) as L3.
    destruct (timer_ok _ _ _ _ T_TRANS now I' L3) as (t4 & E4 & I4 & A4 & K4 & N4); [discriminate|]. rewrite E4. cbn [bind]. do 4 eexists.
    split; [reflexivity|]. split; [exact I4|]. split; [eapply acct_trans; [exact A2|eapply acct_trans1; eassumption]|]. split; [reflexivity|].
    split; [eapply kept_trans; [exact K2|eapply kept_trans; [exact K'|exact K4]]|]. eapply still_at_end; [|exact N4]. intros k. rewrite S'. apply S2.
  - do 4 eexists. split; [reflexivity|]. split; [exact I2|]. split; [exact A2|]. split; [reflexivity|]. split; assumption.
  - unfold gets. rewrite (proj1 L2). cbn [bind]. destruct (unsorted_ok _ _ _ _ (e_timer e) I2 L2) as (o & E' & H). rewrite E'. cbn [bind].
    destruct o as [t'|].
    + destruct H as (Hk & I' & A' & K' & n & N1 & N2 & N3 & N4). do 4 eexists. split; [reflexivity|]. split; [exact I'|]. split; [eapply acct_trans1; eassumption|].
      split; [reflexivity|]. replace (same_timer T_BAD (e_timer e)) with false by (destruct (e_timer e); try reflexivity; congruence).
      split; [eapply kept_trans; eassumption|]. exists n. unfold still in S2. setoid_rewrite S2 in N1. setoid_rewrite S2 in N2. setoid_rewrite S2 in N3. setoid_rewrite S2 in N4. split; [exact N1|].
      assert (Es : forall j, j <> i -> sess t2 j = sess t j) by (intros j N; rewrite (k_sess _ _ _ _ K2); destruct (j =? i) eqn:Ej; [lia|reflexivity]).
      split; [|split; [|intros k'; rewrite N4, ?S2; reflexivity]].
      * intros x j s' H1 H2 H3 H4. apply (N2 x j s'); auto. rewrite Es by exact H3. exact H4.
      * intros j s' H1 H2 H3. assert (H4 : j <> i) by (intros ->; pose proof (N3 i s2 H1 H2 (proj1 L2)); lia). split; [exact H4|]. apply (N3 j s'); auto. rewrite Es by exact H4. exact H3.
    + rewrite H. do 4 eexists. split; [reflexivity|]. split; [exact I2|]. split; [exact A2|]. split; [reflexivity|]. split; assumption.
Qed.

Lemma dyn_kept : forall t t' i s', kept t t' i s' -> dyn t -> dyn t'.
Proof. intros t t' i s' K H x b. rewrite (k_t4 _ _ _ _ K), (k_bibs _ _ _ _ K). apply H. Qed.
Lemma dyn_gone : forall D t t' i s, inv D t -> live D t i s -> gone t t' i (s_bib s) -> dyn t -> dyn t'.
Proof.
  intros D t t' i s I L G H x b Hx Hb Es. destruct (live_bib _ _ _ _ I L) as (b0 & Hb0 & Hi & _). pose proof (g_bib _ _ _ _ G _ Hb0) as C.
  destruct (Z.eq_dec x (s_bib s)) as [->|N].
  - destruct C as [(C1 & C2 & C3 & C4)|(C1 & _)]; [|congruence]. assert (E : b = with_sess b0 (remove_id i (b_sess b0))) by congruence. subst b. simp.
    destruct C4 as [C4|C4]; [congruence|exact C4].
  - rewrite (g_bibs _ _ _ _ G) in Hb by exact N. apply (H x b); auto. destruct C as [(_ & C & _)|(_ & C & _)]; rewrite C in Hx; [exact Hx|]. apply remove_in in Hx. apply Hx.
Qed.
Lemma dyn_fate : forall D t t' i s e f now, inv D t -> live D t i s -> fate_done t t' i s e f now -> dyn t -> dyn t'.
Proof.
  intros D t t' i s e f now I L H Hd. unfold fate_done in H. destruct f; try (destruct H as [K _]; eapply dyn_kept; eassumption).
  - eapply dyn_gone; eassumption.
  - destruct (same_timer T_BAD (e_timer e)); destruct H as [K _]; eapply dyn_kept; eassumption.
Qed.

(** How the entries and the other sessions fare when session [i] is dealt with. *)
Lemma fate_other : forall t t' i s e f now j, fate_done t t' i s e f now -> j <> i -> sess t' j = sess t j.
Proof.
  intros t t' i s e f now j H N. assert (Hk : forall s', kept t t' i s' -> sess t' j = sess t j) by (intros s' K; rewrite (k_sess _ _ _ _ K); destruct (j =? i) eqn:E; [lia|reflexivity]).
  unfold fate_done in H. destruct f; try (destruct H as [K _]; exact (Hk _ K)).
  - rewrite (g_sess _ _ _ _ H). destruct (j =? i) eqn:E; [lia|reflexivity].
  - destruct (same_timer T_BAD (e_timer e)); destruct H as [K _]; exact (Hk _ K).
Qed.

(** The entries of the tables: addresses and whether they are static. *)
Definition mapped (t : tb) (i : Z) (s6 s4 : ta) (st : bool) : Prop :=
  In i (tree4 t) /\ exists b, bibs t i = Some b /\ b_src6 b = s6 /\ b_src4 b = s4 /\ b_static b = st.

Lemma fate_maps : forall t t' i s b e f now, fate_done t t' i s e f now -> bibs t (s_bib s) = Some b ->
  (forall x s6 s4 st, mapped t' x s6 s4 st -> mapped t x s6 s4 st) /\
  (forall x s6 s4 st, mapped t x s6 s4 st -> st = true \/ x <> s_bib s -> mapped t' x s6 s4 st).
Proof.
  intros t t' i s b e f now H Hb. assert (Hk : forall s', kept t t' i s' -> (forall x s6 s4 st, mapped t' x s6 s4 st <-> mapped t x s6 s4 st)).
  { intros s' K x s6 s4 st. unfold mapped. rewrite (k_t4 _ _ _ _ K), (k_bibs _ _ _ _ K). reflexivity. }
  assert (Hk' : forall s', kept t t' i s' -> (forall x s6 s4 st, mapped t' x s6 s4 st -> mapped t x s6 s4 st) /\ (forall x s6 s4 st, mapped t x s6 s4 st -> st = true \/ x <> s_bib s -> mapped t' x s6 s4 st)).
  { intros s' K. split; intros; apply (Hk _ K); assumption. }
  unfold fate_done in H. destruct f; try (destruct H as [K _]; exact (Hk' _ K)).
  - pose proof (g_bib _ _ _ _ H _ Hb) as C. pose proof (g_bibs _ _ _ _ H) as G. split.
    + intros x s6 s4 st (Hx & b' & Hb' & E). destruct C as [(C1 & C2 & C3 & C4)|(C1 & C2 & C3 & C4)]; rewrite C2 in Hx.
      * destruct (Z.eq_dec x (s_bib s)) as [->|N]; [|rewrite G in Hb' by exact N; split; [exact Hx|eauto]]. rewrite C1 in Hb'. injection Hb' as <-. split; [exact Hx|]. exists b. auto.
      * apply remove_in in Hx. rewrite G in Hb' by apply Hx. split; [apply Hx|eauto].
    + intros x s6 s4 st (Hx & b' & Hb' & E1 & E2 & E3) Hor. destruct C as [(C1 & C2 & C3 & C4)|(C1 & C2 & C3 & C4 & C5)]; (split; [rewrite C2|]).
      * exact Hx.
      * destruct (Z.eq_dec x (s_bib s)) as [->|N]; [|rewrite G by exact N; eauto]. rewrite C1. assert (b' = b) by congruence. subst b'. eexists. split; [reflexivity|]. auto.
      * apply remove_in. split; [exact Hx|]. intros ->. destruct Hor as [->|Hor]; [congruence|congruence].
      * assert (N : x <> s_bib s) by (intros ->; destruct Hor as [->|Hor]; congruence). rewrite G by exact N. eauto.
  - destruct (same_timer T_BAD (e_timer e)); destruct H as [K _]; exact (Hk' _ K).
Qed.
