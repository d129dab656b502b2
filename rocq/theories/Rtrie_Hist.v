Require Import Verif.Base Verif.Addr_Model Verif.Rtrie_Model Verif.Rtrie_Spec Verif.Rtrie_Proofs Verif.Rtrie_Steps.

Section Trie.
Context {V : Type}.
Notation tree := (@tree V).

Lemma alloc_state : forall (t : trie V) n tr, tree_state t tr -> tree_state (snd (alloc t n)) tr.
Proof.
  intros t n tr H. eapply tree_state_frame; [exact H|reflexivity|reflexivity|cbn; lia|].
  intros p Hp. cbn. unfold hupd. rewrite (proj2 (Nat.eqb_neq p (t_next t))) by lia. reflexivity.
Qed.

(** add_to_root on a nonempty trie *)
Lemma add_to_root_ok : forall (t : trie V) tbl (tr : tree) k v ok2 new,
  tree_state t tr -> Permutation (leaves tr) tbl ->
  (forall k', In k' (map fst tbl) -> overlap k k' -> k = k') ->
  ~ prefix_of (tkey tr) k -> ~ In new (fp tr) -> (new < t_next t)%nat ->
  t_heap t new = Some (Node None None None (Some v) k) ->
  (ok2 = false -> add_to_root t ok2 new = Ok (Err ENOMEM, t)) /\
  (ok2 = true -> exists t' tr', add_to_root t ok2 new = Ok (OK, t') /\ tree_state t' tr' /\
     Permutation (leaves tr') ((k, v) :: tbl)).
Proof.
  intros t tbl tr k v ok2 new Hst Hperm Hfit Hnp Hnew Hlt Hn.
  pose proof Hst as (HR & Hrep & Hnd & Hltr & Hlist & Hwf).
  assert (Hkn : ~ prefix_of k (tkey tr)).
  { intros Hx. apply Hnp. replace (tkey tr) with k; [apply prefix_refl|].
    apply (fits_subtree tbl k tr tr []); auto. }
  assert (Ho : ~ overlap (tkey tr) k) by (unfold overlap; tauto).
  destruct (rep_addr _ _ _ Hrep) as (rn & Hrn & Krn).
  assert (La : (addr tr < t_next t)%nat) by (apply Hltr, addr_in_fp).
  assert (Dn : new <> addr tr) by (intros ->; apply Hnew, addr_in_fp).
  split; intros ->;
  unfold add_to_root; rewrite HR; unfold deref at 1; rewrite Hn; cbn [bind n_key];
  unfold deref at 1; rewrite Hrn; cbn [bind]; rewrite Krn; rewrite (proj2 (key_contains_false _ _) Hkn);
  [reflexivity|].
  destruct (diverge _ _ Ho) as (p & y & dt & dk & Dt & Dk & Dlen).
  assert (Ep : firstn (key_match (tkey tr) k) k = p) by (rewrite key_match_lcp, Dlen, Dk at 1; apply firstn_app_exact).
  rewrite Ep. unfold create_inode, alloc. run. rewrite ?Hrn, ?Hn.
  eexists. exists (B (t_next t) p tr (L new k v)). split; [reflexivity|].
  split; [|cbn [leaves]; rewrite <- Permutation_cons_append; apply perm_skip; exact Hperm].
  unfold tree_state. cbn [t_root t_heap t_next t_list addr fp rep wf].
  split; [reflexivity|]. split; [|split; [|split; [|split]]].
  - cbn [addr]. eqb_tac. rewrite ?Hrn, ?Hn. cbn [bind t_heap n_left n_right n_parent n_val n_key]. eqb_tac.
    split; [reflexivity|]. split; [|reflexivity].
    eapply rep_reparent; [exact Hnd| |intros n E; rewrite Hrn in E; injection E as <-; eqb_tac; reflexivity|exact Hrep].
    intros q Hq Hqa. specialize (Hltr q Hq). assert (q <> new) by (intros ->; auto). eqb_tac. reflexivity.
  - constructor.
    + intros Hi. apply in_app_or in Hi. cbn in Hi. destruct Hi as [Hi|[Hi|[]]]; [apply Hltr in Hi; lia|lia].
    + eapply Permutation_NoDup; [apply Permutation_cons_append|]. constructor; auto.
  - intros q [<-|Hq]; [lia|]. apply in_app_or in Hq. cbn in Hq. destruct Hq as [Hq|[<-|[]]]; [apply Hltr in Hq; lia|lia].
  - rewrite Hlist. rewrite <- Permutation_cons_append. apply perm_swap.
  - split; [|split; [exact Hwf|exact I]]. exists y. cbn [tkey]. rewrite Dt, Dk.
    split; [exists dt|exists dk]; rewrite <- app_assoc; reflexivity.
Qed.

Lemma not_in_keys : forall (tr : tree) tbl k, Permutation (leaves tr) tbl ->
  (forall v, ~ In (k, v) (leaves tr)) -> ~ In k (map fst tbl).
Proof.
  intros tr tbl k Hp Hn Hin. apply in_map_iff in Hin. destruct Hin as ([k' v'] & E & Hin). cbn in E. subst k'.
  apply (Hn v'). eapply Permutation_in; [symmetry; exact Hp|exact Hin].
Qed.

Lemma add_ok : forall (t : trie V) tbl ok1 ok2 k v,
  Inv t tbl -> fits tbl (TAdd ok1 ok2 k v) ->
  exists r t' tbl', rtrie_add t ok1 ok2 k v = Ok (r, t') /\ spec_step tbl (TAdd ok1 ok2 k v) r tbl' /\ Inv t' tbl'.
Proof.
  intros t tbl ok1 ok2 k v Hinv Hfit. cbn [fits] in Hfit.
  destruct ok1.
  2:{ exists (Err ENOMEM), t, tbl. split; [reflexivity|]. split; [apply SAddNoMem; reflexivity|exact Hinv]. }
  unfold rtrie_add, create_leaf.
  set (nn := Node None None None (Some v) k). destruct (alloc t nn) as [new t1] eqn:Eal.
  assert (Enew : new = t_next t) by (unfold alloc in Eal; congruence).
  assert (Et1 : t1 = snd (alloc t nn)) by (rewrite Eal; reflexivity).
  assert (Hn1 : t_heap t1 new = Some nn).
  { rewrite Et1, Enew. cbn. unfold hupd. rewrite Nat.eqb_refl. reflexivity. }
  assert (Hnext : t_next t1 = S (t_next t)) by (rewrite Et1; reflexivity).
  destruct Hinv as [(Hroot & Hlist & ->)|(tr & Hst & Hperm)].
  - (* empty *)
    assert (R1 : t_root t1 = None) by (rewrite Et1; exact Hroot).
    assert (L1 : t_list t1 = []) by (rewrite Et1; exact Hlist).
    unfold find_lcp. rewrite R1. cbn [bind]. unfold add_to_root. rewrite R1.
    exists OK. eexists. exists [(k, v)]. split; [reflexivity|]. split.
    + apply SAdd; [cbn; tauto|reflexivity].
    + right. exists (L new k v). split; [|reflexivity].
      unfold tree_state. cbn [t_root t_heap t_next t_list addr fp rep wf list_add set_root].
      rewrite L1. repeat split; auto.
      * constructor; [cbn; tauto|constructor].
      * intros p [<-|[]]. lia.
  - assert (Hst1 : tree_state t1 tr) by (rewrite Et1; apply alloc_state; exact Hst).
    assert (Hfresh : ~ In new (fp tr)).
    { intros Hin. destruct Hst as (_ & _ & _ & Hlt & _). apply Hlt in Hin. lia. }
    destruct (find_lcp_ok t1 tr k false Hst1) as [(Hnp & E)|(c & s & -> & Hp & Hstop & E)].
    + (* above the root *)
      rewrite E. cbn [bind].
      destruct (add_to_root_ok t1 tbl tr k v ok2 new Hst1 Hperm Hfit Hnp Hfresh) as [H1 H2]; [lia|exact Hn1|].
      destruct ok2.
      * destruct (H2 eq_refl) as (t' & tr' & E' & Hst' & Hp').
        exists OK, t', ((k, v) :: tbl). split; [exact E'|]. split; [|right; eauto].
        apply SAdd; [|reflexivity]. eapply not_in_keys; [exact Hperm|]. intros w Hin. apply Hnp.
        destruct Hst as (_ & _ & _ & _ & _ & Hwf). eapply wf_leaves_ext; eauto.
      * rewrite (H1 eq_refl). exists (Err ENOMEM), t1, tbl. split; [reflexivity|].
        split; [apply SAddNoMem; reflexivity|right; eauto].
    + rewrite E. cbn [bind].
      destruct (at_state t1 c s Hst1) as (A1 & A2 & A3 & A4 & A5 & A6 & A7 & A8 & A9).
      destruct s as [a k0 v0|a k0 l r].
      * (* existing leaf *)
        cbn [addr tkey rep] in *.
        assert (Hin : In k0 (map fst tbl)).
        { eapply (leaves_key_in (plug c (L a k0 v0))); [exact Hperm|]. eapply Permutation_in; [symmetry; apply leaves_plug|].
          apply in_or_app. left. left. reflexivity. }
        assert (k = k0) by (apply Hfit; auto; right; exact Hp). subst k0.
        unfold deref. rewrite A2. cbn [bind n_key n_val].
        rewrite (proj2 (key_equals_spec k k) eq_refl).
        exists (Err EEXIST). eexists. exists tbl. split; [reflexivity|].
        split; [apply SAddDup; exact Hin|].
        right. exists (plug c (L a k v0)). split; [|exact Hperm].
        eapply tree_state_frame; [exact Hst|cbn; rewrite Et1; reflexivity|cbn; rewrite Et1; reflexivity|cbn; lia|].
        intros p Hp'. cbn. unfold hupd. rewrite (proj2 (Nat.eqb_neq p new)) by lia. rewrite Et1. cbn. unfold hupd.
        rewrite (proj2 (Nat.eqb_neq p (t_next t))) by lia. reflexivity.
      * (* under a black node *)
        cbn [stop] in Hstop. destruct Hstop as [Sl Sr]. cbn [tkey] in Hp.
        assert (Hlt' : (new < t_next t1)%nat) by lia.
        destruct (add_at_black t1 tbl c a k0 l r k v ok2 new nn Hst1 Hperm Hfit Hp Sl Sr Hfresh Hlt' Hn1 eq_refl)
          as (Hne & Cl & Cr & H1 & H2).
        cbn [addr rep] in *. destruct A2 as (Ha & Hrl & Hrr).
        destruct (rep_addr _ _ _ Hrl) as (ln & Hln & Kln). destruct (rep_addr _ _ _ Hrr) as (rn & Hrn & Krn).
        unfold deref at 1. rewrite Ha. cbn [bind n_key n_val n_left n_right].
        destruct (key_equals k0 k) eqn:Eeq; [apply key_equals_spec in Eeq; contradiction|].
        unfold deref at 1. rewrite Hln. cbn [bind]. unfold deref at 1. rewrite Hrn. cbn [bind].
        rewrite Kln, Krn, Cl, Cr. cbn [andb].
        destruct ok2.
        -- destruct (H2 eq_refl) as (t' & s' & E' & Hst' & Hp').
           exists OK, t', ((k, v) :: tbl). split; [exact E'|]. split; [|right; eauto].
           apply SAdd; [|reflexivity]. eapply not_in_keys; [exact Hperm|]. intros w Hin.
           destruct (stop_match c (B a k0 l r) k k w) as (a' & Hx); auto; try discriminate.
           ++ apply Hst.
           ++ cbn. auto.
           ++ apply prefix_refl.
        -- rewrite (H1 eq_refl). exists (Err ENOMEM), t1, tbl. split; [reflexivity|].
           split; [apply SAddNoMem; reflexivity|right; eauto].
Qed.

(** ** Removal *)
Lemma wf_ctx_mono : forall c h h', wf_ctx (V:=V) c h -> prefix_of h h' -> wf_ctx c h'.
Proof.
  destruct c as [|[side a k s] c]; cbn [wf_ctx]; intros h h' H Hp; [exact I|].
  destruct H as ((b & H1 & H2) & H3 & H4). repeat split; auto. exists b. split; auto. eapply prefix_trans; eauto.
Qed.

Lemma get_parent_slot : forall (t : trie V) c hole n,
  rep_ctx (t_heap t) (t_root t) c hole -> t_heap t hole = Some n -> n_parent n = cpar c ->
  ~ In hole (fp_ctx c) ->
  exists sl, get_parent_ptr t hole = Ok sl /\
    match c with
    | [] => sl = SRoot
    | Fr false a _ _ :: _ => sl = SLeft a
    | Fr true a _ _ :: _ => sl = SRight a
    end.
Proof.
  intros t c hole n Hc Hn Hp Hni. unfold get_parent_ptr, deref. rewrite Hn. cbn [bind]. rewrite Hp.
  destruct c as [|[side a k s] c]; cbn [cpar rep_ctx fp_ctx] in *.
  - eexists. split; reflexivity.
  - destruct Hc as (Ha & Hs & _). rewrite Ha. cbn [bind n_left opt_nat_eqb].
    destruct side.
    + rewrite (proj2 (Nat.eqb_neq (addr s) hole)); [eexists; split; reflexivity|].
      intros <-. apply Hni. right. apply in_or_app. left. apply addr_in_fp.
    + rewrite Nat.eqb_refl. eexists. split; reflexivity.
Qed.

Lemma rep_ctx_hole : forall c (h h' : nat -> option (node V)) root root' hole hole' ,
  rep_ctx h root c hole ->
  NoDup (fp_ctx c) ->
  (forall p, In p (fp_ctx c) -> Some p <> cpar c -> h' p = h p) ->
  (match c with
   | [] => root' = Some hole'
   | Fr side a k s :: c' => root' = root /\
       h' a = Some (Node (Some (if side then addr s else hole')) (Some (if side then hole' else addr s)) (cpar c') None k)
   end) ->
  rep_ctx h' root' c hole'.
Proof.
  destruct c as [|[side a k s] c]; cbn [rep_ctx fp_ctx cpar]; intros h h' root root' hole hole' Hr Hnd Hext Hx.
  - exact Hx.
  - destruct Hx as [-> Hx]. destruct Hr as (H1 & H2 & H3).
    apply NoDup_cons_iff in Hnd. destruct Hnd as [Na Hnd].
    split; [exact Hx|]. split.
    + eapply rep_ext; [|exact H2]. intros p Hp. apply Hext; [right; apply in_or_app; auto|].
      intros [= ->]. apply Na. apply in_or_app. auto.
    + eapply rep_ctx_ext; [|exact H3]. intros p Hp. apply Hext; [right; apply in_or_app; auto|].
      intros [= ->]. apply Na. apply in_or_app. auto.
Qed.

Lemma filter_perm_remove : forall (l : list nat) a rest, Permutation l (a :: rest) -> NoDup (a :: rest) ->
  Permutation (filter (fun q => negb (q =? a)%nat) l) rest.
Proof.
  intros l a rest Hp Hnd.
  assert (H : Permutation (filter (fun q => negb (q =? a)%nat) l) (filter (fun q => negb (q =? a)%nat) (a :: rest))).
  { clear Hnd. induction Hp; cbn.
    - constructor.
    - destruct (negb (x =? a)%nat); auto.
    - destruct (negb (x =? a)%nat), (negb (y =? a)%nat); auto. apply perm_swap.
    - etransitivity; eauto. }
  rewrite H. cbn. rewrite Nat.eqb_refl. cbn.
  apply NoDup_cons_iff in Hnd. destruct Hnd as [Hn _].
  replace (filter (fun q => negb (q =? a)%nat) rest) with rest; [reflexivity|].
  clear - Hn. induction rest as [|x l IH]; cbn; [reflexivity|].
  rewrite (proj2 (Nat.eqb_neq x a)) by (intros ->; apply Hn; left; reflexivity). cbn. f_equal. apply IH.
  intros Hi. apply Hn. right. exact Hi.
Qed.

(** The pruning loop on a black node with one child left. *)
Lemma prune_splice : forall (t : trie V) c a k (s : tree) (sd : bool) fuel,
  t_heap t a = Some (Node (if sd then Some (addr s) else None) (if sd then None else Some (addr s)) (cpar c) None k) ->
  rep_ctx (t_heap t) (t_root t) c a -> rep (t_heap t) (Some a) s ->
  NoDup (a :: fp s ++ fp_ctx c) ->
  exists t', prune t (S fuel) a = Ok t' /\
    t_list t' = filter (fun q => negb (q =? a)%nat) (t_list t) /\ t_next t' = t_next t /\
    rep_ctx (t_heap t') (t_root t') c (addr s) /\ rep (t_heap t') (cpar c) s.
Proof.
  intros t c a k s sd fuel Ha Hc Hs Hnd.
  apply NoDup_cons_iff in Hnd. destruct Hnd as [Na Hnd]. apply nodup_app in Hnd. destruct Hnd as (Ns & Nc & Nd).
  assert (Nac : ~ In a (fp_ctx c)) by (intros H; apply Na; apply in_or_app; auto).
  assert (Nas : a <> addr s) by (intros H; apply Na; apply in_or_app; left; rewrite H; apply addr_in_fp).
  assert (Nsc : ~ In (addr s) (fp_ctx c)) by (intros H; eapply Nd; [apply addr_in_fp|exact H]).
  destruct (get_parent_slot t c a _ Hc Ha eq_refl Nac) as (sl & Esl & Hsl).
  destruct (rep_addr _ _ _ Hs) as (sn & Hsn & Ksn).
  assert (Hgoal : exists t', (let! t := write_slot t sl (Some (addr s)) in
      let! t := set_parent t (addr s) (cpar c) in Ok (free (list_del t a) a)) = Ok t' /\
    t_list t' = filter (fun q => negb (q =? a)%nat) (t_list t) /\ t_next t' = t_next t /\
    rep_ctx (t_heap t') (t_root t') c (addr s) /\ rep (t_heap t') (cpar c) s).
  { destruct c as [|[side pa pk ps] c]; cbn [cpar] in *.
    - subst sl. cbn [write_slot bind]. run. eexists. split; [reflexivity|]. cbn [t_list t_next t_heap t_root].
      split; [reflexivity|]. split; [reflexivity|]. split; [reflexivity|].
      eapply rep_reparent; [exact Ns| | |exact Hs].
      + intros p Hp Hpa. assert (p <> a) by (intros ->; apply Na; apply in_or_app; auto). eqb_tac. reflexivity.
      + intros n Hn. eqb_tac. rewrite Hsn in Hn. injection Hn as <-. reflexivity.
    - cbn [rep_ctx fp_ctx] in Hc. destruct Hc as (Hpa & Hps & Hc').
      assert (pa <> a) by (intros ->; apply Nac; left; reflexivity).
      assert (pa <> addr s) by (intros ->; apply Nsc; left; reflexivity).
      destruct side; subst sl; cbn [write_slot]; run;
        (eexists; split; [reflexivity|]; cbn [t_list t_next t_heap t_root];
         split; [reflexivity|]; split; [reflexivity|]; split;
         [ eapply (rep_ctx_hole _ (t_heap t)); [cbn [rep_ctx]; repeat split; eassumption|exact Nc| |]
         | eapply rep_reparent; [exact Ns| | |exact Hs] ]).
      all: try (intros p Hp Hpa').
      all: try (intros n Hn).
      + cbn [cpar] in Hpa'. assert (p <> pa) by congruence.
        assert (p <> a) by (intros ->; auto). assert (p <> addr s) by (intros ->; auto). eqb_tac. reflexivity.
      + split; [reflexivity|]. eqb_tac. reflexivity.
      + assert (p <> a) by (intros ->; apply Na; apply in_or_app; auto).
        assert (p <> pa) by (intros ->; eapply Nd; [exact Hp|left; reflexivity]). eqb_tac. reflexivity.
      + eqb_tac. rewrite Hsn in Hn. injection Hn as <-. reflexivity.
      + cbn [cpar] in Hpa'. assert (p <> pa) by congruence.
        assert (p <> a) by (intros ->; auto). assert (p <> addr s) by (intros ->; auto). eqb_tac. reflexivity.
      + split; [reflexivity|]. eqb_tac. reflexivity.
      + assert (p <> a) by (intros ->; apply Na; apply in_or_app; auto).
        assert (p <> pa) by (intros ->; eapply Nd; [exact Hp|left; reflexivity]). eqb_tac. reflexivity.
      + eqb_tac. rewrite Hsn in Hn. injection Hn as <-. reflexivity. }
  cbn [prune]. rewrite Esl. unfold deref at 1. rewrite Ha. cbn [bind n_left n_right n_parent].
  destruct sd; exact Hgoal.
Qed.

Lemma rm_leaf : forall (t : trie V) c a k v, tree_state t (plug c (L a k v)) ->
  exists t', prune t (S (t_next t)) a = Ok t' /\ Inv t' (leaves_ctx c).
Proof.
  intros t c a k v Hst.
  destruct (at_state t c (L a k v) Hst) as (A1 & A2 & A3 & A4 & A5 & A6 & A7 & A8 & A9).
  assert (Nac : ~ In a (fp_ctx c)) by (intros H; apply (A5 a); [left; reflexivity|exact H]).
  cbn [addr rep] in *.
  destruct (get_parent_slot t c a _ A1 A2 eq_refl Nac) as (sl & Esl & Hsl).
  pose proof Hst as (HR & _ & Hnd & Hlt & Hlist & Hwf).
  pose proof (fp_plug c (L a k v)) as Hfp. cbn [fp app] in Hfp.
  remember (t_next t) as fu.
  cbn [prune]. rewrite Esl. unfold deref at 1. rewrite A2. cbn [bind n_left n_right n_parent].
  destruct c as [|[side pa pk sib] c].
  - subst sl. cbn [write_slot bind cpar]. eexists. split; [reflexivity|].
    left. cbn. split; [reflexivity|]. split; [|reflexivity].
    cbn [plug fp] in Hlist. apply Permutation_sym in Hlist. apply Permutation_length_1_inv in Hlist. rewrite Hlist. cbn. rewrite Nat.eqb_refl.
    reflexivity.
  - cbn [cpar rep_ctx fp_ctx leaves_ctx wf_ctx] in *. destruct A1 as (Hpa & Hsib & Hc).
    destruct A8 as ((b & Hb1 & Hb2) & Wsib & Wc).
    assert (pa <> a) by (intros ->; apply Nac; left; reflexivity).
    apply NoDup_cons_iff in A4. destruct A4 as [Npa A4].
    assert (Pl : Permutation (filter (fun q => negb (q =? a)%nat) (t_list t)) (pa :: fp sib ++ fp_ctx c)).
    { apply filter_perm_remove.
      - rewrite Hlist. exact Hfp.
      - constructor; [exact Nac|]. constructor; auto. }
    destruct fu as [|fu]; [specialize (A7 pa (or_introl eq_refl)); lia|].
    assert (Hspl : exists t1, write_slot t sl None = Ok t1 /\
      exists t', prune (free (list_del t1 a) a) (S fu) pa = Ok t' /\
        t_list t' = filter (fun q => negb (q =? pa)%nat) (filter (fun q => negb (q =? a)%nat) (t_list t)) /\ t_next t' = t_next t /\
        rep_ctx (t_heap t') (t_root t') c (addr sib) /\ rep (t_heap t') (cpar c) sib /\
        (exists n, t_heap (free (list_del t1 a) a) pa = Some n /\ n_val n = None)).
    { assert (Hx : forall h', (forall p, In p (fp sib) \/ In p (fp_ctx c) -> h' p = t_heap t p) ->
        rep_ctx h' (t_root t) c pa /\ rep h' (Some pa) sib).
      { intros h' Hh. split; [eapply rep_ctx_ext; [|exact Hc]|eapply rep_ext; [|exact Hsib]]; intros p Hp; apply Hh; auto. }
      assert (Hne : forall p, In p (fp sib) \/ In p (fp_ctx c) -> p <> pa /\ p <> a).
      { intros p Hp. split; intros ->.
        - apply Npa. apply in_or_app. tauto.
        - apply Nac. right. apply in_or_app. tauto. }
      destruct side; subst sl; cbn [write_slot]; run; eexists; (split; [reflexivity|]).
      - match goal with |- exists t', prune ?T _ _ = _ /\ _ => edestruct (prune_splice T c pa pk sib true fu) as (t' & P1 & P2 & P3 & P4 & P5) end.
        + cbn [t_heap]. eqb_tac. reflexivity.
        + cbn [t_heap t_root]. apply Hx. intros p Hp. destruct (Hne p Hp). eqb_tac. reflexivity.
        + cbn [t_heap t_root]. apply Hx. intros p Hp. destruct (Hne p Hp). eqb_tac. reflexivity.
        + constructor; auto.
        + exists t'. cbn [t_list t_next] in *. repeat split; auto. cbn [t_heap]. eexists. eqb_tac. split; reflexivity.
      - match goal with |- exists t', prune ?T _ _ = _ /\ _ => edestruct (prune_splice T c pa pk sib false fu) as (t' & P1 & P2 & P3 & P4 & P5) end.
        + cbn [t_heap]. eqb_tac. reflexivity.
        + cbn [t_heap t_root]. apply Hx. intros p Hp. destruct (Hne p Hp). eqb_tac. reflexivity.
        + cbn [t_heap t_root]. apply Hx. intros p Hp. destruct (Hne p Hp). eqb_tac. reflexivity.
        + constructor; auto.
        + exists t'. cbn [t_list t_next] in *. repeat split; auto. cbn [t_heap]. eexists. eqb_tac. split; reflexivity. }
    destruct Hspl as (t1 & E1 & t' & E2 & L2 & N2 & R2 & S2 & (n & Hn & Vn)).
    rewrite E1. cbn [bind]. unfold deref at 1. rewrite Hn. cbn [bind]. rewrite Vn.
    exists t'. split; [exact E2|]. right. exists (plug c sib).
    assert (Hr : rep (t_heap t') None (plug c sib) /\ t_root t' = Some (addr (plug c sib))).
    { apply rep_plug. auto. }
    destruct Hr as [Hr1 Hr2].
    assert (Pl2 : Permutation (t_list t') (fp sib ++ fp_ctx c)).
    { rewrite L2. apply filter_perm_remove; [exact Pl|constructor; auto]. }
    split; [|apply leaves_plug].
    unfold tree_state. split; [exact Hr2|]. split; [exact Hr1|].
    split; [eapply Permutation_NoDup; [symmetry; apply fp_plug|exact A4]|].
    split.
    + intros p Hp. rewrite N2, <- Heqfu. apply A7. right. eapply Permutation_in; [apply fp_plug|exact Hp].
    + split; [rewrite Pl2; symmetry; apply fp_plug|].
      apply wf_plug. split; auto. eapply wf_ctx_mono; [exact Wc|].
      destruct Hb2 as (z & Hz). exists (negb b :: z). rewrite Hz, <- app_assoc. reflexivity.
Qed.

Lemma Inv_perm : forall (t : trie V) tbl tbl', Inv t tbl -> Permutation tbl tbl' -> Inv t tbl'.
Proof.
  intros t tbl tbl' [(H1 & H2 & ->)|(tr & H1 & H2)] Hp.
  - left. apply Permutation_nil in Hp. auto.
  - right. exists tr. split; auto. rewrite H2. exact Hp.
Qed.

Lemma rm_ok : forall (t : trie V) tbl ok k, Inv t tbl ->
  exists r t' tbl', rtrie_rm t ok k = Ok (r, t') /\ spec_step tbl (TRm ok k) r tbl' /\ Inv t' tbl'.
Proof.
  intros t tbl ok k Hinv. pose proof Hinv as [(Hroot & Hlist & ->)|(tr & Hst & Hperm)].
  - unfold rtrie_rm, find_lcp. rewrite Hroot. cbn [bind]. exists (Err ESRCH), t, [].
    split; [reflexivity|]. split; [apply SRmNone; cbn; tauto|exact Hinv].
  - destruct (find_lcp_ok t tr k true Hst) as [(Hn & E)|(c & s & -> & Hp & Hstop & E)].
    + unfold rtrie_rm. rewrite E. cbn [bind]. exists (Err ESRCH), t, tbl.
      split; [reflexivity|]. split; [|exact Hinv]. apply SRmNone. eapply not_in_keys; [exact Hperm|].
      intros v Hin. apply Hn. eapply wf_leaves_ext; [apply Hst|exact Hin].
    + destruct s as [a k0 v|a k0 l r].
      * unfold rtrie_rm. rewrite E. cbn [bind].
        destruct (at_state t c (L a k0 v) Hst) as (A1 & A2 & A3 & A4 & A5 & A6 & A7 & A8 & A9).
        cbn [addr rep] in *. unfold deref at 1. rewrite A2. cbn [bind n_key n_left n_right].
        destruct (key_equals k0 k) eqn:Eeq; cbn [negb].
        -- apply key_equals_spec in Eeq. subst k0.
           destruct (rm_leaf t c a k v Hst) as (t' & E' & Hinv').
           rewrite E'. cbn [bind]. exists OK, t', (leaves_ctx c). split; [reflexivity|]. split; [|exact Hinv'].
           apply SRm with (v := v).
           ++ rewrite <- Hperm. apply (leaves_plug c (L a k v)).
           ++ intros Hin. apply in_map_iff in Hin. destruct Hin as ([k' v'] & Ek & Hin). cbn in Ek. subst k'.
              eapply (ctx_incomparable c k k v' k A8 Hin); [apply prefix_refl|left; apply prefix_refl].
        -- exists (Err ESRCH), t, tbl. split; [reflexivity|]. split; [|exact Hinv]. apply SRmNone.
           eapply not_in_keys; [exact Hperm|]. intros v' Hin.
           destruct (stop_match c (L a k0 v) k k v') as (a' & Hx); auto; [apply Hst|apply prefix_refl|].
           injection Hx as _ -> _. rewrite (proj2 (key_equals_spec k k) eq_refl) in Eeq. discriminate.
      * unfold rtrie_rm. rewrite E. cbn [bind]. exists (Err ESRCH), t, tbl.
        split; [reflexivity|]. split; [|exact Hinv]. apply SRmNone. eapply not_in_keys; [exact Hperm|].
        intros v Hin. destruct (stop_match c (B a k0 l r) k k v) as (a' & Hx); auto; [apply Hst|apply prefix_refl|discriminate].
Qed.

Lemma flush_ok : forall (t : trie V) tbl, Inv t tbl -> Inv (rtrie_flush t) [].
Proof.
  intros t tbl [(Hroot & Hlist & ->)|(tr & Hst & Hperm)]; left; unfold rtrie_flush.
  - rewrite Hroot. auto.
  - destruct Hst as (-> & _). cbn. auto.
Qed.

Lemma step_ok : forall (t : trie V) tbl o, Inv t tbl -> fits tbl o ->
  exists r t' tbl', trie_step t o = Ok (r, t') /\ spec_step tbl o r tbl' /\ Inv t' tbl'.
Proof.
  intros t tbl [ok1 ok2 k v|ok k|] Hinv Hfit; cbn [trie_step].
  - apply add_ok; auto.
  - apply rm_ok; auto.
  - exists OK, (rtrie_flush t), []. split; [reflexivity|]. split; [constructor|]. eapply flush_ok; eauto.
Qed.

Lemma run_ok : forall ops (t : trie V) tbl, Inv t tbl -> never_overlaps tbl ops ->
  exists rs t' tbl', trie_run t ops = Ok (rs, t') /\ spec_run tbl ops rs tbl' /\ Inv t' tbl'.
Proof.
  induction ops as [|o ops IH]; intros t tbl Hinv Hno; cbn [never_overlaps trie_run] in *.
  - exists [], t, tbl. repeat split; auto. constructor.
  - destruct Hno as [Hfit Hno].
    destruct (step_ok t tbl o Hinv Hfit) as (r & t1 & tbl1 & E1 & S1 & I1).
    destruct (IH t1 tbl1 I1 (Hno r tbl1 S1)) as (rs & t2 & tbl2 & E2 & S2 & I2).
    exists (r :: rs), t2, tbl2. rewrite E1. cbn [bind snd]. rewrite E2. cbn [bind fst snd].
    repeat split; auto. econstructor; eauto.
Qed.

Lemma init_inv : Inv (@rtrie_init V) [].
Proof. left. auto. Qed.

(** Enumeration *)
Lemma rep_node_in : forall (tr : tree) h par p, rep h par tr -> In p (fp tr) ->
  exists n, h p = Some n /\ (forall v, n_val n = Some v -> In (n_key n, v) (leaves tr)).
Proof.
  induction tr as [a k v|a k l IHl r IHr]; cbn [rep fp leaves]; intros h par p Hr Hin.
  - destruct Hin as [<-|[]]. eexists. split; [exact Hr|]. cbn. intros w [= ->]. auto.
  - destruct Hr as (Ha & Hl & Hrr). destruct Hin as [<-|Hin].
    + eexists. split; [exact Ha|]. cbn. discriminate.
    + apply in_app_or in Hin. destruct Hin as [Hin|Hin].
      * destruct (IHl _ _ _ Hl Hin) as (n & Hn & Hv). exists n. split; auto. intros v H. apply in_or_app. auto.
      * destruct (IHr _ _ _ Hrr Hin) as (n & Hn & Hv). exists n. split; auto. intros v H. apply in_or_app. auto.
Qed.

Definition vals_at (h : nat -> option (node V)) (l : list nat) : list V :=
  flat_map (fun p => match h p with Some n => match n_val n with Some v => [v] | None => [] end | None => [] end) l.

Lemma vals_at_leaves : forall (tr : tree) h par, rep h par tr -> vals_at h (fp tr) = map snd (leaves tr).
Proof.
  unfold vals_at. induction tr as [a k v|a k l IHl r IHr]; cbn [rep fp leaves map flat_map]; intros h par Hr.
  - rewrite Hr. reflexivity.
  - destruct Hr as (Ha & Hl & Hrr). rewrite Ha. cbn [n_val app]. rewrite flat_map_app, map_app.
    rewrite (IHl _ _ Hl), (IHr _ _ Hrr). reflexivity.
Qed.

Lemma foreach_all : forall (t : trie V) l, (forall p, In p l -> exists n, t_heap t p = Some n) ->
  foreach_loop t l None = Ok (vals_at (t_heap t) l, None).
Proof.
  intros t. induction l as [|p l IH]; intros H; cbn [foreach_loop vals_at flat_map]; [reflexivity|].
  destruct (H p (or_introl eq_refl)) as (n & Hn). unfold deref. rewrite Hn. cbn [bind].
  rewrite IH by (intros q Hq; apply H; right; exact Hq). cbn [bind fst snd]. destruct (n_val n); reflexivity.
Qed.

Lemma foreach_ok : forall (t : trie V) tbl, Inv t tbl ->
  exists vs, rtrie_foreach t None = Ok (OK, vs) /\ Permutation vs (map snd tbl).
Proof.
  intros t tbl [(Hroot & Hlist & ->)|(tr & Hst & Hperm)]; unfold rtrie_foreach.
  - rewrite Hlist. exists []. split; auto.
  - destruct Hst as (HR & Hrep & Hnd & Hlt & Hlist & Hwf).
    assert (H : forall p, In p (t_list t) -> exists n, t_heap t p = Some n).
    { intros p Hp. destruct (rep_node_in tr _ _ p Hrep) as (n & Hn & _); [eapply Permutation_in; eauto|eauto]. }
    exists (vals_at (t_heap t) (t_list t)). split.
    + destruct (t_list t) as [|p l]; [reflexivity|]. rewrite foreach_all by exact H. reflexivity.
    + rewrite <- Hperm. rewrite <- (vals_at_leaves tr _ _ Hrep).
      unfold vals_at. apply Permutation_flat_map. exact Hlist.
Qed.
End Trie.
