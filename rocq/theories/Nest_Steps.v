(** The trie with nested keys: what additions, removals and flushes do. *)
Require Import Verif.Base Verif.Addr_Model Verif.Rtrie_Model Verif.Rtrie_Spec Verif.Rtrie_Proofs Verif.Rtrie_Steps Verif.Rtrie_Hist Verif.Nest_Trie.

Section Nest.
Context {V : Type}.
Notation ntree := (ntree V).
Notation nctx := (nctx V).

Lemma keys_of : forall (tr : ntree) tbl k v, Permutation (nvals tr) tbl -> In (k, v) (nvals tr) -> In k (map fst tbl).
Proof. intros tr tbl k v Hp Hin. apply in_map_iff. exists (k, v). split; auto. eapply Permutation_in; eauto. Qed.

(** ** add_full_collision *)
Lemma nfull_run : forall (t : trie V) a new al ar pn ln rn nn small h1 h2 p sn n1 n2,
  t_heap t a = Some pn -> t_heap t al = Some ln -> t_heap t ar = Some rn -> t_heap t new = Some nn ->
  a <> al -> a <> ar -> al <> ar -> new <> a -> new <> al -> new <> ar ->
  (a < t_next t)%nat -> (al < t_next t)%nat -> (ar < t_next t)%nat -> (new < t_next t)%nat ->
  t_heap t small = Some sn -> t_heap t h1 = Some n1 -> t_heap t h2 = Some n2 ->
  ((small, h1, h2) = (new, al, ar) \/ (small, h1, h2) = (ar, new, al) \/ (small, h1, h2) = (al, new, ar)) ->
  (key_match (n_key sn) (n_key n1) < key_match (n_key n1) (n_key n2))%nat ->
  (key_match (n_key sn) (n_key n2) < key_match (n_key n1) (n_key n2))%nat ->
  p = firstn (key_match (n_key n1) (n_key n2)) (n_key n1) ->
  exists t', add_full_collision t true a new al ar = Ok (OK, t') /\
    t_root t' = t_root t /\ t_next t' = S (t_next t) /\ t_list t' = new :: t_next t :: t_list t /\
    t_heap t' a = Some (Node (Some small) (Some (t_next t)) (n_parent pn) (n_val pn) (n_key pn)) /\
    t_heap t' (t_next t) = Some (Node (Some h1) (Some h2) (Some a) None p) /\
    t_heap t' small = Some (reparent (Some a) sn) /\
    t_heap t' h1 = Some (reparent (Some (t_next t)) n1) /\
    t_heap t' h2 = Some (reparent (Some (t_next t)) n2) /\
    (forall q, q <> a -> q <> al -> q <> ar -> q <> new -> q <> t_next t -> t_heap t' q = t_heap t q).
Proof.
  intros t a new al ar pn ln rn nn small h1 h2 p sn n1 n2 Ha Hl Hr Hn Dal Dar Dlr Dna Dnl Dnr La Ll Lr Ln Hs H1 H2 HC L1 L2 ->.
  unfold add_full_collision.
  unfold deref at 1. rewrite Hl. cbn [bind]. unfold deref at 1. rewrite Hr. cbn [bind].
  unfold deref at 1. rewrite Hn. cbn [bind]. rewrite !key_match_lcp in *.
  assert (C : forall x y : key, lcp x y = lcp y x).
  { induction x as [|i x IH]; intros [|j y]; cbn; auto. destruct i, j; cbn; auto. }
  assert (F : forall x y : key, firstn (lcp x y) x = firstn (lcp x y) y).
  { induction x as [|i x IH]; intros [|j y]; cbn; auto. destruct i, j; cbn; auto; f_equal; auto. }
  destruct HC as [[= -> -> ->]|[[= -> -> ->]|[= -> -> ->]]];
    [rewrite Hn in Hs; rewrite Hl in H1; rewrite Hr in H2|rewrite Hr in Hs; rewrite Hn in H1; rewrite Hl in H2
    |rewrite Hl in Hs; rewrite Hn in H1; rewrite Hr in H2];
    injection Hs as <-; injection H1 as <-; injection H2 as <-.
  - match goal with |- context [if ?b1 && ?b2 then _ else _] =>
      replace (b1 && b2) with true by (symmetry; apply andb_true_iff; split; apply Nat.ltb_lt; rewrite (C _ (n_key nn)); lia) end.
    unfold create_inode, alloc. run.
    eexists. split; [reflexivity|].
    cbn [t_heap t_next t_root t_list]. eqb_tac. rewrite ?Ha, ?Hl, ?Hr, ?Hn.
    repeat split; try reflexivity. all: try (intros q; intros; eqb_tac; reflexivity).
  - match goal with |- context [if ?b1 && ?b2 then _ else if ?b3 && ?b4 then _ else _] =>
      replace (b1 && b2) with false by (symmetry; apply andb_false_iff; left; apply Nat.ltb_ge; rewrite (C (n_key ln)), (C (n_key ln) (n_key nn)); lia);
      replace (b3 && b4) with true by (symmetry; apply andb_true_iff; split; apply Nat.ltb_lt; rewrite ?(C (n_key ln)); lia) end.
    unfold create_inode, alloc. run.
    eexists. split; [reflexivity|].
    cbn [t_heap t_next t_root t_list]. eqb_tac. rewrite ?Ha, ?Hl, ?Hr, ?Hn.
    repeat split; try reflexivity. all: try (intros q; intros; eqb_tac; reflexivity).
    rewrite (C (n_key ln)). reflexivity.
  - match goal with |- context [if ?b1 && ?b2 then _ else if ?b3 && ?b4 then _ else if ?b5 && ?b6 then _ else _] =>
      replace (b1 && b2) with false by (symmetry; apply andb_false_iff; right; apply Nat.ltb_ge; rewrite (C (n_key rn)); lia);
      replace (b3 && b4) with false by (symmetry; apply andb_false_iff; right; apply Nat.ltb_ge; rewrite (C (n_key rn)); lia);
      replace (b5 && b6) with true by (symmetry; apply andb_true_iff; split; apply Nat.ltb_lt; rewrite (C (n_key rn)); lia) end.
    unfold create_inode, alloc. run.
    eexists. split; [reflexivity|].
    cbn [t_heap t_next t_root t_list]. eqb_tac. rewrite ?Ha, ?Hl, ?Hr, ?Hn.
    repeat split; try reflexivity. all: try (intros q; intros; eqb_tac; reflexivity).
    rewrite (C (n_key rn)). reflexivity.
Qed.

Lemma nfull_nomem : forall (t : trie V) a new al ar ln rn nn,
  t_heap t al = Some ln -> t_heap t ar = Some rn -> t_heap t new = Some nn ->
  ~ overlap (n_key ln) (n_key rn) -> ~ overlap (n_key ln) (n_key nn) -> ~ overlap (n_key rn) (n_key nn) ->
  add_full_collision t false a new al ar = Ok (Err ENOMEM, t).
Proof.
  intros t a new al ar ln rn nn Hl Hr Hn O1 O2 O3. unfold add_full_collision.
  unfold deref at 1. rewrite Hl. cbn [bind]. unfold deref at 1. rewrite Hr. cbn [bind].
  unfold deref at 1. rewrite Hn. cbn [bind]. rewrite !key_match_lcp.
  pose proof (three _ _ _ O1 O2 O3) as T.
  repeat match goal with |- context [if ?b1 && ?b2 then _ else _] => destruct b1 eqn:?, b2 eqn:?; cbn [andb] end;
  try reflexivity; exfalso;
  repeat match goal with H : (_ <? _)%nat = true |- _ => apply Nat.ltb_lt in H | H : (_ <? _)%nat = false |- _ => apply Nat.ltb_ge in H end; lia.
Qed.

(** add_full_collision seen on trees: [S] stays under the parent, [H1] and [H2]
    move under the new inode. *)
Lemma collide_tree : forall (t t' : trie V) c a k0 ov (l r S H1 H2 : ntree) k v new p aS a1 a2 kS k1 k2 nS n1 n2,
  nstate t (nplug c (N a k0 ov l r)) ->
  Permutation (nfp S ++ nfp H1 ++ nfp H2) (new :: nfp l ++ nfp r) ->
  Permutation (nvals S ++ nvals H1 ++ nvals H2) ((k, v) :: nvals l ++ nvals r) ->
  nwf S -> nwf H1 -> nwf H2 ->
  (exists par, nrep (t_heap t) par S) -> (exists par, nrep (t_heap t) par H1) -> (exists par, nrep (t_heap t) par H2) ->
  oaddr S = Some aS -> oaddr H1 = Some a1 -> oaddr H2 = Some a2 ->
  okey S = Some kS -> okey H1 = Some k1 -> okey H2 = Some k2 ->
  strict k0 kS -> strict k0 k1 -> strict k0 k2 -> ~ overlap kS k1 -> ~ overlap k1 k2 ->
  (lcp kS k1 < lcp k1 k2)%nat -> p = firstn (lcp k1 k2) k1 ->
  ~ In new (nfp (nplug c (N a k0 ov l r))) -> (new < t_next t)%nat ->
  t_root t' = t_root t -> t_next t' = Datatypes.S (t_next t) -> t_list t' = new :: t_next t :: t_list t ->
  t_heap t' a = Some (Node (Some aS) (Some (t_next t)) (ncpar c) ov k0) ->
  t_heap t' (t_next t) = Some (Node (Some a1) (Some a2) (Some a) None p) ->
  t_heap t aS = Some nS -> t_heap t a1 = Some n1 -> t_heap t a2 = Some n2 ->
  t_heap t' aS = Some (reparent (Some a) nS) ->
  t_heap t' a1 = Some (reparent (Some (t_next t)) n1) ->
  t_heap t' a2 = Some (reparent (Some (t_next t)) n2) ->
  (forall q, q <> a -> q <> aS -> q <> a1 -> q <> a2 -> q <> t_next t -> t_heap t' q = t_heap t q) ->
  nstate t' (nplug c (N a k0 ov S (N (t_next t) p None H1 H2))) /\
  Permutation (nvals (nplug c (N a k0 ov S (N (t_next t) p None H1 H2)))) ((k, v) :: nvals (nplug c (N a k0 ov l r))).
Proof.
  intros t t' c a k0 ov l r S H1 H2 k v new p aS a1 a2 kS k1 k2 nS n1 n2 Hst PFP PLV WS W1 W2 (pS & RS) (p1 & R1) (p2 & R2)
    AS A1 A2 KS K1 K2 TS T1 T2 OS1 O12 L12 Hp Hnew Hnewlt F1 F2 F3 F4 F5 HnS Hn1 Hn2 F6 F7 F8 F9.
  destruct (branch k0 kS k1 k2 TS T1 T2 OS1 O12 L12) as (B0 & B1 & B2 & BS). rewrite <- Hp in *.
  destruct (nat_state t c _ Hst) as (D1 & D2 & D3 & D4 & D5 & D6 & D7 & D8 & D9).
  cbn [nfp] in D3, D5, D6.
  assert (Hnew' : forall q, In q (a :: nfp l ++ nfp r) -> new <> q).
  { intros q Hin ->. apply Hnew. eapply Permutation_in; [symmetry; apply nfp_plug|]. apply in_or_app. left. exact Hin. }
  assert (Hnewc : forall q, In q (nfp_ctx c) -> new <> q).
  { intros q Hin ->. apply Hnew. eapply Permutation_in; [symmetry; apply nfp_plug|]. apply in_or_app. right. exact Hin. }
  assert (ND : NoDup (a :: nfp S ++ nfp H1 ++ nfp H2)).
  { apply NoDup_cons_iff in D3. destruct D3 as [Na Nd]. constructor.
    - intros Hi. apply (Permutation_in _ PFP) in Hi. destruct Hi as [Hi|Hi]; [|tauto].
      apply (Hnew' a); [left; reflexivity|exact Hi].
    - eapply Permutation_NoDup; [symmetry; exact PFP|]. constructor; [|exact Nd].
      intros Hi. apply (Hnew' new); [right; exact Hi|reflexivity]. }
  assert (Dc : forall q, In q (a :: nfp S ++ nfp H1 ++ nfp H2) -> In q (nfp_ctx c) -> False).
  { intros q [<-|Hq] Hc; [eapply D5; [left; reflexivity|exact Hc]|].
    apply (Permutation_in _ PFP) in Hq. destruct Hq as [<-|Hq]; [eapply Hnewc; eauto|]. eapply D5; [right; exact Hq|exact Hc]. }
  assert (Lt : forall q, In q (a :: nfp S ++ nfp H1 ++ nfp H2) -> (q < t_next t)%nat).
  { intros q [<-|Hq]; [apply D6; left; reflexivity|].
    apply (Permutation_in _ PFP) in Hq. destruct Hq as [<-|Hq]; [exact Hnewlt|]. apply D6. right. exact Hq. }
  apply NoDup_cons_iff in ND. destruct ND as [Na ND]. apply nodup_app in ND. destruct ND as (NS & ND & DS).
  apply nodup_app in ND. destruct ND as (N1 & N2 & D12).
  assert (IS : forall q, In q (nfp S) -> In q (a :: nfp S ++ nfp H1 ++ nfp H2)) by (intros; right; apply in_or_app; auto).
  assert (I1 : forall q, In q (nfp H1) -> In q (a :: nfp S ++ nfp H1 ++ nfp H2)) by (intros; right; apply in_or_app; right; apply in_or_app; auto).
  assert (I2 : forall q, In q (nfp H2) -> In q (a :: nfp S ++ nfp H1 ++ nfp H2)) by (intros; right; apply in_or_app; right; apply in_or_app; auto).
  pose proof (oaddr_in_fp _ _ AS) as IaS. pose proof (oaddr_in_fp _ _ A1) as Ia1. pose proof (oaddr_in_fp _ _ A2) as Ia2.
  assert (NaS : forall q, In q (nfp S) -> q <> a) by (intros q Hq ->; apply Na, in_or_app; auto).
  assert (Na1 : forall q, In q (nfp H1) -> q <> a) by (intros q Hq ->; apply Na, in_or_app; right; apply in_or_app; auto).
  assert (Na2 : forall q, In q (nfp H2) -> q <> a) by (intros q Hq ->; apply Na, in_or_app; right; apply in_or_app; auto).
  assert (DS1 : forall q, In q (nfp S) -> In q (nfp H1) -> False) by (intros q X Y; apply (DS q X), in_or_app; auto).
  assert (DS2 : forall q, In q (nfp S) -> In q (nfp H2) -> False) by (intros q X Y; apply (DS q X), in_or_app; auto).
  split.
  - apply (nstate_replace t t' c (N a k0 ov l r) _ [new; t_next t]); auto.
    + cbn [nwf okey]. rewrite KS, K1, K2. cbn [below apart].
      repeat split; auto; try (apply TS || apply B0 || apply B1 || apply B2).
      all: destruct S, H1, H2; try discriminate.
    + cbn [nrep oaddr]. rewrite AS, A1, A2. split; [exact F4|].
      split; [|split; [exact F5|split]].
      * eapply nrep_reparent; [exact NS| | |exact RS].
        -- intros q Hq Hne. apply F9; auto; try congruence.
           ++ intros ->. eapply DS1; eauto.
           ++ intros ->. eapply DS2; eauto.
           ++ intros ->. apply IS, Lt in Hq. lia.
        -- intros b n Hb Hn. rewrite AS in Hb. injection Hb as <-. rewrite HnS in Hn. injection Hn as <-. exact F6.
      * eapply nrep_reparent; [exact N1| | |exact R1].
        -- intros q Hq Hne. apply F9; auto; try congruence.
           ++ intros ->. eapply DS1; eauto.
           ++ intros ->. eapply D12; eauto.
           ++ intros ->. apply I1, Lt in Hq. lia.
        -- intros b n Hb Hn. rewrite A1 in Hb. injection Hb as <-. rewrite Hn1 in Hn. injection Hn as <-. exact F7.
      * eapply nrep_reparent; [exact N2| | |exact R2].
        -- intros q Hq Hne. apply F9; auto; try congruence.
           ++ intros ->. eapply DS2; eauto.
           ++ intros ->. eapply D12; eauto.
           ++ intros ->. apply I2, Lt in Hq. lia.
        -- intros b n Hb Hn. rewrite A2 in Hb. injection Hb as <-. rewrite Hn2 in Hn. injection Hn as <-. exact F8.
    + intros q Hq. apply F9.
      * intros ->. eapply Dc; [left; reflexivity|exact Hq].
      * intros ->. eapply Dc; [apply IS; exact IaS|exact Hq].
      * intros ->. eapply Dc; [apply I1; exact Ia1|exact Hq].
      * intros ->. eapply Dc; [apply I2; exact Ia2|exact Hq].
      * intros ->. apply D7 in Hq. lia.
    + cbn [nfp app].
      pose proof (proj1 (Permutation_count_occ Nat.eq_dec _ _) PFP) as PC.
      apply (Permutation_count_occ Nat.eq_dec). intros z. specialize (PC z).
      repeat (rewrite ?count_occ_app in *; cbn [count_occ app] in * ).
      destruct (Nat.eq_dec new z), (Nat.eq_dec (t_next t) z), (Nat.eq_dec a z); repeat (rewrite ?count_occ_app in *; cbn [count_occ app] in * ); lia.
    + constructor; [cbn; lia|]. constructor; [cbn; tauto|constructor].
    + intros q [<-|[<-|[]]]; (split; [auto|lia]).
      intros Hin. destruct Hst as (_ & _ & _ & Hlt & _). apply Hlt in Hin. lia.
    + lia.
    + rewrite F3. reflexivity.
  - rewrite !nvals_plug. cbn [nvals own app]. rewrite app_comm_cons. apply Permutation_app_tail.
    rewrite PLV. rewrite <- Permutation_middle. reflexivity.
Qed.

(** ** Additions *)

(** [k] is strictly above no stored key. *)
Definition no_wider (tbl : list (key * V)) (k : key) : Prop :=
  forall k', In k' (map fst tbl) -> prefix_of k k' -> k = k'.

Lemma no_wider_sub : forall tbl k (c : nctx) s ks, nwf (nplug c s) -> Permutation (nvals (nplug c s)) tbl ->
  no_wider tbl k -> okey s = Some ks -> prefix_of k ks -> k = ks.
Proof.
  intros tbl k c s ks Hw Hperm Hno Hk Hp. apply nwf_plug in Hw. destruct Hw as (_ & Hs).
  destruct (nvals_nonempty s Hs) as (k' & v' & Hin); [intros ->; discriminate|].
  pose proof (nvals_ext s k' v' Hs Hin) as Hx. rewrite Hk in Hx. cbn [contains] in Hx.
  assert (E : k = k').
  { apply Hno; [|eapply prefix_trans; eauto]. eapply keys_of; [exact Hperm|].
    eapply Permutation_in; [symmetry; apply nvals_plug|]. apply in_or_app. left. exact Hin. }
  subst k'. apply prefix_antisym; auto.
Qed.

Lemma nalloc_state : forall (t : trie V) n tr, nstate t tr -> nstate (snd (alloc t n)) tr.
Proof.
  intros t n tr H. eapply nstate_frame; [exact H|reflexivity|reflexivity|cbn; lia|].
  intros p Hp. cbn. unfold hupd. rewrite (proj2 (Nat.eqb_neq p (t_next t))) by lia. reflexivity.
Qed.

Lemma nadd_to_root : forall (t : trie V) tbl (tr : ntree) k v ok2 new,
  nstate t tr -> Permutation (nvals tr) tbl -> no_wider tbl k ->
  ~ contains (okey tr) k -> ~ In new (nfp tr) -> (new < t_next t)%nat ->
  t_heap t new = Some (Node None None None (Some v) k) ->
  (ok2 = false /\ add_to_root t ok2 new = Ok (Err ENOMEM, t)) \/
  (exists t' tr', add_to_root t ok2 new = Ok (OK, t') /\ nstate t' tr' /\ Permutation (nvals tr') ((k, v) :: tbl)).
Proof.
  intros t tbl tr k v ok2 new Hst Hperm Hno Hnp Hnew Hlt Hn.
  pose proof Hst as (HR & Hrep & Hnd & Hltr & Hlist & Hwf).
  destruct tr as [|a ka ov l r].
  - right. unfold add_to_root. rewrite HR. cbn [oaddr]. eexists. exists (N new k (Some v) E E). split; [reflexivity|].
    cbn [nvals own app] in *. split; [|apply perm_skip; exact Hperm].
    unfold nstate. cbn [t_root t_heap t_next t_list oaddr nfp nrep nwf list_add set_root okey below apart].
    repeat split; auto; try discriminate.
    + constructor; [cbn; tauto|constructor].
    + intros p [<-|[]]. lia.
  - remember (N a ka ov l r) as tr eqn:Etr.
    assert (Ea : oaddr tr = Some a) by (subst tr; reflexivity). assert (Ek : okey tr = Some ka) by (subst tr; reflexivity).
    assert (Hkn : ~ prefix_of k ka).
    { intros Hx. apply Hnp. rewrite Ek. cbn. rewrite <- (no_wider_sub tbl k [] tr ka Hwf Hperm Hno Ek Hx). apply prefix_refl. }
    rewrite Ek in Hnp. cbn [contains] in Hnp.
    assert (Ho : ~ overlap ka k) by (unfold overlap; tauto).
    destruct (nrep_addr _ _ _ _ Hrep Ea) as (rn & kr & Hrn & Kr & Krn & _). rewrite Ek in Kr. injection Kr as <-.
    assert (La : (a < t_next t)%nat) by (apply Hltr, oaddr_in_fp, Ea).
    assert (Dn : new <> a) by (intros ->; apply Hnew, oaddr_in_fp, Ea).
    unfold add_to_root. rewrite HR, Ea. unfold deref at 1 3. rewrite Hn. cbn [bind n_key].
    unfold deref at 1 2. rewrite Hrn. cbn [bind]. rewrite Krn, (proj2 (key_contains_false _ _) Hkn).
    destruct ok2; [right|left; split; reflexivity].
    destruct (diverge _ _ Ho) as (p & y & dt & dk & Dt & Dk & Dlen).
    assert (Ep : firstn (key_match ka k) k = p) by (rewrite key_match_lcp, Dlen, Dk at 1; apply firstn_app_exact).
    rewrite Ep. unfold create_inode, alloc. run. rewrite ?Hrn, ?Hn.
    eexists. exists (N (t_next t) p None tr (N new k (Some v) E E)). split; [reflexivity|].
    split; [|cbn [nvals own app]; rewrite <- Permutation_cons_append; apply perm_skip; exact Hperm].
    unfold nstate. cbn [t_root t_heap t_next t_list oaddr nfp nrep nwf okey].
    split; [reflexivity|]. split; [|split; [|split; [|split]]].
    + rewrite Ea. eqb_tac. rewrite ?Hrn, ?Hn. cbn [bind t_heap n_left n_right n_parent n_val n_key]. eqb_tac.
      split; [reflexivity|]. split; [|auto].
      eapply nrep_reparent; [exact Hnd| |intros b n E E'; rewrite Ea in E; injection E as <-; rewrite Hrn in E'; injection E' as <-; eqb_tac; reflexivity|exact Hrep].
      intros q Hq Hqa. rewrite Ea in Hqa. specialize (Hltr q Hq). assert (q <> new) by (intros ->; auto).
      assert (q <> a) by congruence. eqb_tac. reflexivity.
    + constructor.
      * intros Hi. apply in_app_or in Hi. cbn in Hi. destruct Hi as [Hi|[Hi|[]]]; [apply Hltr in Hi; lia|lia].
      * eapply Permutation_NoDup; [apply Permutation_cons_append|]. constructor; auto.
    + intros q [<-|Hq]; [lia|]. apply in_app_or in Hq. cbn in Hq. destruct Hq as [Hq|[<-|[]]]; [apply Hltr in Hq; lia|lia].
    + rewrite Hlist. rewrite <- Permutation_cons_append. apply perm_swap.
    + rewrite Ek. cbn [below apart].
      assert (Sk : strict p ka) by (split; [exists (y :: dt); exact Dt|intros E; rewrite E in Dt; apply (f_equal (@length bool)) in Dt; rewrite app_length in Dt; cbn in Dt; lia]).
      assert (Sn : strict p k) by (split; [exists (negb y :: dk); exact Dk|intros E; rewrite E in Dk; apply (f_equal (@length bool)) in Dk; rewrite app_length in Dk; cbn in Dk; lia]).
      repeat split; auto; try apply Sk; try apply Sn; try discriminate. subst tr. discriminate.
Qed.

(** Giving the new leaf to a free slot of a white node. *)
Lemma nadd_slot : forall (t : trie V) c a k0 ov (s : ntree) (sd : bool) k v new t',
  (sd = true -> nstate t (nplug c (N a k0 ov E s))) -> (sd = false -> nstate t (nplug c (N a k0 ov s E))) ->
  strict k0 k -> (forall ks, okey s = Some ks -> ~ overlap ks k) ->
  (forall q, In q (nfp (nplug c (if sd then N a k0 ov E s else N a k0 ov s E))) -> q <> new) -> (new < t_next t)%nat ->
  t_root t' = t_root t -> t_next t' = t_next t -> t_list t' = new :: t_list t ->
  t_heap t' a = Some (Node (if sd then Some new else oaddr s) (if sd then oaddr s else Some new) (ncpar c) ov k0) ->
  t_heap t' new = Some (Node None None (Some a) (Some v) k) ->
  (forall q, q <> a -> q <> new -> t_heap t' q = t_heap t q) ->
  let s' := if sd then N a k0 ov (N new k (Some v) E E) s else N a k0 ov s (N new k (Some v) E E) in
  nstate t' (nplug c s') /\
  Permutation (nvals (nplug c s')) ((k, v) :: nvals (nplug c (if sd then N a k0 ov E s else N a k0 ov s E))).
Proof.
  intros t c a k0 ov s sd k v new t' Hs1 Hs2 Hk Hov Hnew Hlt F1 F2 F3 F4 F5 F6 s'.
  set (s0 := if sd then N a k0 ov E s else N a k0 ov s E) in *.
  assert (Hst : nstate t (nplug c s0)) by (subst s0; destruct sd; auto).
  destruct (nat_state t c s0 Hst) as (D1 & D2 & D3 & D4 & D5 & D6 & D7 & D8 & D9).
  assert (Is : forall q, In q (nfp s) -> In q (nfp s0)) by (intros q Hq; subst s0; destruct sd; cbn [nfp]; right; apply in_or_app; auto).
  assert (Ia : In a (nfp s0)) by (subst s0; destruct sd; left; reflexivity).
  assert (Na : ~ In a (nfp s)).
  { subst s0. destruct sd; cbn [nfp app] in D3; apply NoDup_cons_iff in D3; destruct D3 as (D3 & _); [exact D3|].
    rewrite app_nil_r in D3. exact D3. }
  assert (Hin : forall q, In q (nfp s0) \/ In q (nfp_ctx c) -> q <> new).
  { intros q Hq. apply Hnew. eapply Permutation_in; [symmetry; apply nfp_plug|]. apply in_or_app. tauto. }
  assert (Rs : nrep (t_heap t') (Some a) s).
  { eapply nrep_ext; [|subst s0; destruct sd; cbn [nrep] in D2; apply D2]. intros q Hq. apply F6; [intros ->; auto|apply Hin; auto]. }
  assert (Ws : nwf s /\ below k0 (okey s)) by (subst s0; destruct sd; cbn [nwf] in D9; tauto).
  assert (Ap : apart (okey s) (Some k)) by (destruct (okey s) as [ks|]; cbn; auto).
  assert (Hov' : ov = None -> s <> E -> False).
  { intros E0 _. subst s0. destruct sd; cbn [nwf] in D9; destruct D9 as (_ & _ & _ & X & _); destruct (X E0); congruence. }
  assert (Hw : ov <> None).
  { intros E0. subst s0. destruct sd; cbn [nwf] in D9; destruct D9 as (_ & _ & _ & X & _); destruct (X E0); congruence. }
  split.
  - apply (nstate_replace t t' c s0 s' [new]); auto.
    + subst s0 s'. destruct sd; reflexivity.
    + subst s0 s'. destruct sd; reflexivity.
    + subst s0 s'. destruct Ws. destruct sd; cbn [nwf okey below]; repeat split; auto; try apply Hk; try congruence; try discriminate.
      apply apart_sym. exact Ap.
    + subst s0 s'. destruct sd; cbn [nrep oaddr]; repeat split; auto.
    + intros q Hq. apply F6; [|apply Hin; auto]. intros ->. eapply D5; eauto.
    + subst s0 s'. destruct sd; cbn [nfp app]; [apply perm_swap|]. rewrite app_nil_r.
      etransitivity; [apply perm_swap|]. apply perm_skip. apply Permutation_cons_append.
    + constructor; [cbn; tauto|constructor].
    + intros q [<-|[]]. split; [|lia]. intros Hq. apply (Hnew new Hq). reflexivity.
    + lia.
    + rewrite F3. reflexivity.
  - rewrite !nvals_plug. rewrite app_comm_cons. apply Permutation_app_tail. subst s0 s'.
    destruct sd; cbn [nvals own app].
    + rewrite <- Permutation_middle. reflexivity.
    + rewrite app_nil_r. rewrite app_assoc. symmetry. apply Permutation_cons_append.
Qed.

Lemma nadd_ok : forall (t : trie V) tbl ok1 ok2 k v,
  NInv t tbl -> no_wider tbl k ->
  exists r t' tbl', rtrie_add t ok1 ok2 k v = Ok (r, t') /\ spec_step tbl (TAdd ok1 ok2 k v) r tbl' /\ NInv t' tbl'.
Proof.
  intros t tbl ok1 ok2 k v (tr & Hst & Hperm) Hno.
  destruct ok1.
  2:{ exists (Err ENOMEM), t, tbl. split; [reflexivity|]. split; [apply SAddNoMem; reflexivity|exists tr; auto]. }
  unfold rtrie_add, create_leaf.
  set (nn := Node None None None (Some v) k). destruct (alloc t nn) as [new t1] eqn:Eal.
  assert (Enew : new = t_next t) by (unfold alloc in Eal; congruence).
  assert (Et1 : t1 = snd (alloc t nn)) by (rewrite Eal; reflexivity).
  assert (Hn1 : t_heap t1 new = Some nn).
  { rewrite Et1, Enew. cbn. unfold hupd. rewrite Nat.eqb_refl. reflexivity. }
  assert (Hnext : t_next t1 = S (t_next t)) by (rewrite Et1; reflexivity).
  assert (Hst1 : nstate t1 tr) by (rewrite Et1; apply nalloc_state; exact Hst).
  assert (Hfresh : ~ In new (nfp tr)).
  { intros Hin. destruct Hst as (_ & _ & _ & Hlt & _). apply Hlt in Hin. lia. }
  destruct (nfind_lcp t1 tr k false Hst1) as [(Hnp & Ef)|(c & s & -> & Hp & Hstop & Ef)]; rewrite Ef; cbn [bind].
  - (* above the root *)
    assert (Hnk : ~ In k (map fst tbl)).
    { intros Hin. apply in_map_iff in Hin. destruct Hin as ([k' v'] & Ek & Hin). cbn in Ek. subst k'.
      apply Hnp. eapply nvals_ext; [apply Hst|]. eapply Permutation_in; [symmetry; exact Hperm|exact Hin]. }
    destruct (nadd_to_root t1 tbl tr k v ok2 new Hst1 Hperm Hno Hnp Hfresh ltac:(lia) Hn1) as [(-> & ->)|(t' & tr' & -> & Hst' & Hp')].
    + exists (Err ENOMEM), t1, tbl. split; [reflexivity|]. split; [apply SAddNoMem; reflexivity|exists tr; auto].
    + exists OK, t', ((k, v) :: tbl). split; [reflexivity|]. split; [apply SAdd; auto|exists tr'; auto].
  - destruct s as [|a k0 ov l r]; [destruct Hp|]. cbn [oaddr okey contains] in *.
    pose proof Hst1 as (_ & _ & _ & _ & _ & Hwf).
    destruct (nat_state t1 c _ Hst1) as (D1 & D2 & D3 & D4 & D5 & D6 & D7 & D8 & D9).
    pose proof D2 as (Ha & Hrl & Hrr). cbn [nwf] in D9. destruct D9 as (Bl & Br & Alr & Bw & Wl & Wr).
    unfold deref at 1. rewrite Ha. cbn [bind n_key n_val n_left n_right].
    destruct (key_equals k0 k) eqn:Eeq.
    + (* the key is there *)
      apply key_equals_spec in Eeq. subst k0.
      destruct ov as [v0|].
      * exists (Err EEXIST). eexists. exists tbl. split; [reflexivity|]. split.
        -- apply SAddDup. eapply keys_of; [exact Hperm|]. eapply Permutation_in; [symmetry; apply nvals_plug|]. left. reflexivity.
        -- exists (nplug c (N a k (Some v0) l r)). split; [|exact Hperm].
           eapply nstate_frame; [exact Hst|cbn; rewrite Et1; reflexivity|cbn; rewrite Et1; reflexivity|cbn; lia|].
           intros p Hp'. cbn. unfold hupd. rewrite (proj2 (Nat.eqb_neq p new)) by lia. rewrite Et1. cbn. unfold hupd.
           rewrite (proj2 (Nat.eqb_neq p (t_next t))) by lia. reflexivity.
      * exfalso. destruct (Bw eq_refl) as (Nl & _). destruct l as [|al kl ovl ll lr]; [congruence|].
        cbn [okey below] in Bl.
        apply (proj2 Bl). apply (no_wider_sub tbl k (NFr false a k None r :: c) (N al kl ovl ll lr) kl); auto. apply Bl.
    + assert (Hne : k0 <> k).
      { intros ->. rewrite (proj2 (key_equals_spec k k) eq_refl) in Eeq. discriminate. }
      assert (Hk : strict k0 k) by (split; auto). destruct Hstop as (Sl & Sr).
      assert (Ol : forall kl, okey l = Some kl -> ~ overlap kl k).
      { intros kl El [H|H]; [apply Sl; rewrite El; exact H|]. apply Sl. rewrite El. cbn.
        rewrite <- (no_wider_sub tbl k (NFr false a k0 ov r :: c) l kl Hwf Hperm Hno El H). apply prefix_refl. }
      assert (Or : forall kr, okey r = Some kr -> ~ overlap kr k).
      { intros kr El [H|H]; [apply Sr; rewrite El; exact H|]. apply Sr. rewrite El. cbn.
        rewrite <- (no_wider_sub tbl k (NFr true a k0 ov l :: c) r kr Hwf Hperm Hno El H). apply prefix_refl. }
      assert (Hnk : ~ In k (map fst tbl)).
      { intros Hin. apply in_map_iff in Hin. destruct Hin as ([k' v'] & Ek & Hin). cbn in Ek. subst k'.
        apply (Permutation_in _ (Permutation_sym Hperm)) in Hin.
        pose proof (stop_matches c a k0 ov l r k k v' Hwf Hp (conj Sl Sr) Hin (prefix_refl k)) as Hx.
        apply in_app_or in Hx. destruct Hx as [Hx|Hx].
        - destruct ov; cbn in Hx; [destruct Hx as [[= -> _]|[]]; congruence|destruct Hx].
        - pose proof (path_above c k0 k v' D8 Hx) as Hs. pose proof (strict_len _ _ Hs). pose proof (prefix_len _ _ Hp). lia. }
      assert (Hlt' : (new < t_next t1)%nat) by lia.
      assert (La : (a < t_next t1)%nat) by (apply D6; left; reflexivity).
      assert (Hnn : forall q, In q (nfp (nplug c (N a k0 ov l r))) -> q <> new) by (intros q Hq ->; auto).
      assert (Dna : new <> a).
      { apply not_eq_sym. apply Hnn. eapply Permutation_in; [symmetry; apply nfp_plug|]. left. reflexivity. }
      destruct l as [|al kl ovl ll lr] eqn:El; cbn [oaddr].
      { (* free left slot *)
        assert (X : exists t', (let! t2 := set_left t1 a (Some new) in simple_success t2 a new) = Ok (OK, t') /\
          t_root t' = t_root t1 /\ t_next t' = t_next t1 /\ t_list t' = new :: t_list t1 /\
          t_heap t' a = Some (Node (Some new) (oaddr r) (ncpar c) ov k0) /\
          t_heap t' new = Some (Node None None (Some a) (Some v) k) /\
          (forall q, q <> a -> q <> new -> t_heap t' q = t_heap t1 q)).
        { unfold simple_success. run. eexists. split; [reflexivity|]. cbn [t_heap t_next t_root t_list]. eqb_tac.
          repeat split; try reflexivity. intros q Hq1 Hq2. eqb_tac. reflexivity. }
        destruct X as (t' & -> & F1 & F2 & F3 & F4 & F5 & F6).
        destruct (nadd_slot t1 c a k0 ov r true k v new t') as (G1 & G2); auto; try discriminate.
        exists OK, t', ((k, v) :: tbl). split; [reflexivity|]. split; [apply SAdd; auto|].
        eexists. split; [exact G1|]. cbn [okey] in G2. rewrite G2. apply perm_skip. exact Hperm. }
      rewrite <- El in *. assert (Al : oaddr l = Some al) by (rewrite El; reflexivity).
      assert (Kl : okey l = Some kl) by (rewrite El; reflexivity).
      destruct r as [|ar kr ovr rl rr] eqn:Er; cbn [oaddr].
      { (* free right slot *)
        cbn [oaddr] in Ha.
        assert (X : exists t', (let! t2 := set_right t1 a (Some new) in simple_success t2 a new) = Ok (OK, t') /\
          t_root t' = t_root t1 /\ t_next t' = t_next t1 /\ t_list t' = new :: t_list t1 /\
          t_heap t' a = Some (Node (oaddr l) (Some new) (ncpar c) ov k0) /\
          t_heap t' new = Some (Node None None (Some a) (Some v) k) /\
          (forall q, q <> a -> q <> new -> t_heap t' q = t_heap t1 q)).
        { unfold simple_success. run. eexists. split; [reflexivity|]. cbn [t_heap t_next t_root t_list]. eqb_tac.
          repeat split; try reflexivity. intros q Hq1 Hq2. eqb_tac. reflexivity. }
        destruct X as (t' & E' & F1 & F2 & F3 & F4 & F5 & F6). rewrite E'.
        destruct (nadd_slot t1 c a k0 ov l false k v new t') as (G1 & G2); auto; try discriminate.
        exists OK, t', ((k, v) :: tbl). split; [reflexivity|]. split; [apply SAdd; auto|].
        eexists. split; [exact G1|]. rewrite G2. apply perm_skip. exact Hperm. }
      rewrite <- Er in *. assert (Ar : oaddr r = Some ar) by (rewrite Er; reflexivity).
      assert (Kr : okey r = Some kr) by (rewrite Er; reflexivity).
      specialize (Ol kl Kl). specialize (Or kr Kr). rewrite Kl, Kr in Alr. rewrite Kl in Bl. rewrite Kr in Br. cbn [apart below] in Alr, Bl, Br.
      destruct (nrep_addr _ _ _ _ Hrl Al) as (ln & kl' & Hln & Kl' & Kln & _). rewrite Kl in Kl'. injection Kl' as <-.
      destruct (nrep_addr _ _ _ _ Hrr Ar) as (rn & kr' & Hrn & Kr' & Krn & _). rewrite Kr in Kr'. injection Kr' as <-.
      unfold deref at 1. rewrite Hln. cbn [bind]. unfold deref at 1. rewrite Hrn. cbn [bind]. rewrite Kln, Krn.
      rewrite (proj2 (key_contains_false k kl)) by (intros H; apply Ol; right; exact H).
      rewrite (proj2 (key_contains_false k kr)) by (intros H; apply Or; right; exact H). cbn [andb].
      destruct ok2.
      2:{ rewrite (nfull_nomem t1 a new al ar ln rn nn Hln Hrn Hn1); [|rewrite Kln, Krn; exact Alr|rewrite Kln; exact Ol|rewrite Krn; exact Or].
          exists (Err ENOMEM), t1, tbl. split; [reflexivity|]. split; [apply SAddNoMem; reflexivity|eexists; eauto]. }
      cbn [nfp] in D3, D5, D6. apply NoDup_cons_iff in D3. destruct D3 as [Na Nlr]. apply nodup_app in Nlr. destruct Nlr as (Nl & Nr & Dlr).
      pose proof (oaddr_in_fp _ _ Al) as Ial. pose proof (oaddr_in_fp _ _ Ar) as Iar.
      assert (Dal : a <> al) by (intros ->; apply Na, in_or_app; auto).
      assert (Dar : a <> ar) by (intros ->; apply Na, in_or_app; auto).
      assert (Dalr : al <> ar) by (intros ->; eapply Dlr; eauto).
      assert (Hnew' : forall p, In p (a :: nfp l ++ nfp r) -> new <> p).
      { intros p Hin Ep. apply (Hnn p); [|auto]. eapply Permutation_in; [symmetry; apply nfp_plug|]. apply in_or_app. left. exact Hin. }
      assert (Dnl : new <> al) by (apply Hnew'; right; apply in_or_app; auto).
      assert (Dnr : new <> ar) by (apply Hnew'; right; apply in_or_app; auto).
      assert (Ll : (al < t_next t1)%nat) by (apply D6; right; apply in_or_app; auto).
      assert (Lr : (ar < t_next t1)%nat) by (apply D6; right; apply in_or_app; auto).
      set (leaf := N new k (Some v) (@E V) (@E V)).
      assert (Rleaf : nrep (t_heap t1) None leaf) by (subst leaf; cbn [nrep oaddr]; auto).
      assert (Wleaf : nwf leaf) by (subst leaf; cbn; repeat split; auto; discriminate).
      assert (C : forall x y : key, lcp x y = lcp y x).
      { induction x as [|i x IH]; intros [|j y]; cbn; auto. destruct i, j; cbn; auto. }
      destruct (three kl kr k Alr Ol Or) as [(T1 & T2)|[(T1 & T2)|(T1 & T2)]].
      * (* r and the new one agree for longer *)
        destruct (nfull_run t1 a new al ar _ ln rn nn al new ar (firstn (lcp k kr) k) ln nn rn Ha Hln Hrn Hn1)
          as (t' & E' & F1 & F2 & F3 & F4 & F5 & F6 & F7 & F8 & F9); auto;
          try (rewrite !key_match_lcp, ?Kln, ?Krn; cbn [n_key nn]; rewrite ?(C k kr); auto; fail).
        cbn [n_parent n_val n_key] in F4.
        destruct (collide_tree t1 t' c a k0 ov l r l leaf r k v new (firstn (lcp k kr) k) al new ar kl k kr ln nn rn Hst1)
          as (G1 & G2); eauto; try (rewrite (C k kr); lia); try (intros H; apply Or, overlap_sym, H).
        -- subst leaf. cbn [nfp app]. symmetry. apply Permutation_middle.
        -- subst leaf. cbn [nvals own app]. symmetry. apply Permutation_middle.
        -- exists OK, t', ((k, v) :: tbl). split; [exact E'|]. split; [apply SAdd; auto|].
           eexists. split; [exact G1|]. rewrite G2. apply perm_skip. exact Hperm.
      * (* l and the new one *)
        destruct (nfull_run t1 a new al ar _ ln rn nn ar new al (firstn (lcp k kl) k) rn nn ln Ha Hln Hrn Hn1)
          as (t' & E' & F1 & F2 & F3 & F4 & F5 & F6 & F7 & F8 & F9); auto;
          try (rewrite !key_match_lcp, ?Kln, ?Krn; cbn [n_key nn]; rewrite ?(C k kl), ?(C kr kl); auto; fail).
        cbn [n_parent n_val n_key] in F4.
        destruct (collide_tree t1 t' c a k0 ov l r r leaf l k v new (firstn (lcp k kl) k) ar new al kr k kl rn nn ln Hst1)
          as (G1 & G2); eauto; try (rewrite (C k kl); lia); try (intros H; apply Ol, overlap_sym, H).
        -- subst leaf. cbn [nfp app]. rewrite <- Permutation_middle. apply perm_skip. apply Permutation_app_comm.
        -- subst leaf. cbn [nvals own app]. rewrite <- Permutation_middle. apply perm_skip. apply Permutation_app_comm.
        -- exists OK, t', ((k, v) :: tbl). split; [exact E'|]. split; [apply SAdd; auto|].
           eexists. split; [exact G1|]. rewrite G2. apply perm_skip. exact Hperm.
      * (* l and r *)
        destruct (nfull_run t1 a new al ar _ ln rn nn new al ar (firstn (lcp kl kr) kl) nn ln rn Ha Hln Hrn Hn1)
          as (t' & E' & F1 & F2 & F3 & F4 & F5 & F6 & F7 & F8 & F9); auto;
          try (rewrite !key_match_lcp, ?Kln, ?Krn; cbn [n_key nn]; rewrite ?(C k kl), ?(C k kr); auto; fail).
        cbn [n_parent n_val n_key] in F4.
        destruct (collide_tree t1 t' c a k0 ov l r leaf l r k v new (firstn (lcp kl kr) kl) new al ar k kl kr nn ln rn Hst1)
          as (G1 & G2); eauto; try (intros H; apply Ol, overlap_sym, H).
        -- rewrite (C k kl). lia.
        -- exists OK, t', ((k, v) :: tbl). split; [exact E'|]. split; [apply SAdd; auto|].
           eexists. split; [exact G1|]. rewrite G2. apply perm_skip. exact Hperm.
Qed.

(** ** Removals *)
Lemma nget_parent_slot : forall (t : trie V) (c : nctx) hole n,
  nrep_ctx (t_heap t) (t_root t) c (Some hole) -> t_heap t hole = Some n -> n_parent n = ncpar c ->
  ~ In hole (nfp_ctx c) ->
  exists sl, get_parent_ptr t hole = Ok sl /\
    match c with
    | [] => sl = SRoot
    | NFr false a _ _ _ :: _ => sl = SLeft a
    | NFr true a _ _ _ :: _ => sl = SRight a
    end.
Proof.
  intros t c hole n Hc Hn Hp Hni. unfold get_parent_ptr, deref. rewrite Hn. cbn [bind]. rewrite Hp.
  destruct c as [|[side a k ov s] c]; cbn [ncpar nrep_ctx nfp_ctx] in *.
  - eexists. split; reflexivity.
  - destruct Hc as (Ha & Hs & _). rewrite Ha. cbn [bind n_left].
    destruct side.
    + destruct (oaddr s) as [b|] eqn:Eb; cbn [opt_nat_eqb]; [|eexists; split; reflexivity].
      rewrite (proj2 (Nat.eqb_neq b hole)); [eexists; split; reflexivity|].
      intros <-. apply Hni. right. apply in_or_app. left. apply oaddr_in_fp. exact Eb.
    + cbn [opt_nat_eqb]. rewrite Nat.eqb_refl. eexists. split; reflexivity.
Qed.

Lemma nrep_ctx_hole : forall (c : nctx) (h h' : nat -> option (node V)) root root' hole hole' ,
  nrep_ctx h root c hole ->
  NoDup (nfp_ctx c) ->
  (forall p, In p (nfp_ctx c) -> Some p <> ncpar c -> h' p = h p) ->
  (match c with
   | [] => root' = hole'
   | NFr side a k ov s :: c' => root' = root /\
       h' a = Some (Node (if side then oaddr s else hole') (if side then hole' else oaddr s) (ncpar c') ov k)
   end) ->
  nrep_ctx h' root' c hole'.
Proof.
  destruct c as [|[side a k ov s] c]; cbn [nrep_ctx nfp_ctx ncpar]; intros h h' root root' hole hole' Hr Hnd Hext Hx.
  - exact Hx.
  - destruct Hx as [-> Hx]. destruct Hr as (H1 & H2 & H3).
    apply NoDup_cons_iff in Hnd. destruct Hnd as [Na Hnd].
    split; [exact Hx|]. split.
    + eapply nrep_ext; [|exact H2]. intros p Hp. apply Hext; [right; apply in_or_app; auto|].
      intros [= ->]. apply Na. apply in_or_app. auto.
    + eapply nrep_ctx_ext; [|exact H3]. intros p Hp. apply Hext; [right; apply in_or_app; auto|].
      intros [= ->]. apply Na. apply in_or_app. auto.
Qed.

(** The pruning loop on a node with one child left. *)
Lemma nprune_splice : forall (t : trie V) c a k ov (s : ntree) as_ (sd : bool) fuel,
  oaddr s = Some as_ ->
  t_heap t a = Some (Node (if sd then Some as_ else None) (if sd then None else Some as_) (ncpar c) ov k) ->
  nrep_ctx (t_heap t) (t_root t) c (Some a) -> nrep (t_heap t) (Some a) s ->
  NoDup (a :: nfp s ++ nfp_ctx c) ->
  exists t', prune t (S fuel) a = Ok t' /\
    t_list t' = filter (fun q => negb (q =? a)%nat) (t_list t) /\ t_next t' = t_next t /\
    nrep_ctx (t_heap t') (t_root t') c (oaddr s) /\ nrep (t_heap t') (ncpar c) s.
Proof.
  intros t c a k ov s as_ sd fuel As Ha Hc Hs Hnd.
  apply NoDup_cons_iff in Hnd. destruct Hnd as [Na Hnd]. apply nodup_app in Hnd. destruct Hnd as (Ns & Nc & Nd).
  pose proof (oaddr_in_fp _ _ As) as Ias.
  assert (Nac : ~ In a (nfp_ctx c)) by (intros H; apply Na; apply in_or_app; auto).
  assert (Nas : a <> as_) by (intros ->; apply Na; apply in_or_app; auto).
  assert (Nsc : ~ In as_ (nfp_ctx c)) by (intros H; eapply Nd; [exact Ias|exact H]).
  destruct (nget_parent_slot t c a _ Hc Ha eq_refl Nac) as (sl & Esl & Hsl).
  destruct (nrep_addr _ _ _ _ Hs As) as (sn & ks & Hsn & _).
  assert (Hgoal : exists t', (let! t := write_slot t sl (Some as_) in
      let! t := set_parent t as_ (ncpar c) in Ok (free (list_del t a) a)) = Ok t' /\
    t_list t' = filter (fun q => negb (q =? a)%nat) (t_list t) /\ t_next t' = t_next t /\
    nrep_ctx (t_heap t') (t_root t') c (oaddr s) /\ nrep (t_heap t') (ncpar c) s).
  { rewrite As. destruct c as [|[side pa pk pov ps] c]; cbn [ncpar] in *.
    - subst sl. cbn [write_slot bind]. run. eexists. split; [reflexivity|]. cbn [t_list t_next t_heap t_root].
      split; [reflexivity|]. split; [reflexivity|]. split; [reflexivity|].
      eapply nrep_reparent; [exact Ns| | |exact Hs].
      + intros p Hp Hpa. rewrite As in Hpa. assert (p <> as_) by congruence. assert (p <> a) by (intros ->; apply Na; apply in_or_app; auto). eqb_tac. reflexivity.
      + intros b n Hb Hn. rewrite As in Hb. injection Hb as <-. eqb_tac. rewrite Hsn in Hn. injection Hn as <-. reflexivity.
    - cbn [nrep_ctx nfp_ctx] in Hc. destruct Hc as (Hpa & Hps & Hc').
      assert (pa <> a) by (intros ->; apply Nac; left; reflexivity).
      assert (pa <> as_) by (intros ->; apply Nsc; left; reflexivity).
      destruct side; subst sl; cbn [write_slot]; run;
        (eexists; split; [reflexivity|]; cbn [t_list t_next t_heap t_root];
         split; [reflexivity|]; split; [reflexivity|]; split;
         [ eapply (nrep_ctx_hole _ (t_heap t)); [cbn [nrep_ctx]; repeat split; eassumption|exact Nc| |]
         | eapply nrep_reparent; [exact Ns| | |exact Hs] ]).
      all: try (intros b n Hb Hn; rewrite As in Hb; injection Hb as <-; eqb_tac; rewrite Hsn in Hn; injection Hn as <-; reflexivity).
      all: try (split; [reflexivity|]; eqb_tac; reflexivity).
      all: intros p Hp Hpa'.
      all: try (cbn [ncpar] in Hpa'; assert (p <> pa) by congruence;
        assert (p <> a) by (intros ->; auto); assert (p <> as_) by (intros ->; auto); eqb_tac; reflexivity).
      all: rewrite As in Hpa'; assert (p <> as_) by congruence; assert (p <> a) by (intros ->; apply Na; apply in_or_app; auto);
        assert (p <> pa) by (intros ->; eapply Nd; [exact Hp|left; reflexivity]); eqb_tac; reflexivity. }
  cbn [prune]. rewrite Esl. unfold deref at 1. rewrite Ha. cbn [bind n_left n_right n_parent].
  destruct sd; exact Hgoal.
Qed.

Lemma nwf_ctx_mono : forall (c : nctx) h h', nwf_ctx c (Some h) -> prefix_of h h' -> nwf_ctx c (Some h').
Proof.
  destruct c as [|[side a k ov s] c]; cbn [nwf_ctx below]; intros h h' H Hp; [exact H|].
  destruct H as (H1 & H2 & H3 & H4 & H5 & H6). repeat split; auto; try (eapply strict_ext; eauto; fail).
  - destruct (okey s) as [ks|]; cbn in *; [|exact Logic.I]. eapply apart_ext; eauto.
  - discriminate.
  - apply (H4 H).
Qed.

(** What the state is after a node [a] left the tree. *)
Lemma nstate_minus : forall (t t' : trie V) (c : nctx) (s : ntree) a rest,
  t_list t' = filter (fun q => negb (q =? a)%nat) (t_list t) ->
  t_next t' = t_next t -> Permutation (t_list t) (a :: nfp s ++ nfp_ctx c) -> NoDup (a :: nfp s ++ nfp_ctx c) ->
  (forall p, In p rest -> (p < t_next t)%nat) -> (forall p, In p (nfp s ++ nfp_ctx c) -> In p rest) ->
  nrep_ctx (t_heap t') (t_root t') c (oaddr s) -> nrep (t_heap t') (ncpar c) s ->
  nwf_ctx c (okey s) -> nwf s -> nstate t' (nplug c s).
Proof.
  intros t t' c s a rest L N P Nd Lt Sub R1 R2 W1 W2.
  assert (H : nrep (t_heap t') None (nplug c s) /\ t_root t' = oaddr (nplug c s)) by (apply nrep_plug; auto).
  destruct H as (H1 & H2). unfold nstate. split; [exact H2|]. split; [exact H1|].
  pose proof (filter_perm_remove _ a _ P Nd) as P'. rewrite <- L in P'.
  apply NoDup_cons_iff in Nd. destruct Nd as (_ & Nd).
  split; [eapply Permutation_NoDup; [symmetry; apply nfp_plug|exact Nd]|].
  split; [intros p Hp; rewrite N; apply Lt, Sub; eapply Permutation_in; [apply nfp_plug|exact Hp]|].
  split; [rewrite P'; symmetry; apply nfp_plug|]. apply nwf_plug. auto.
Qed.

(** Removing a white node with at most one child. *)
Lemma nrm_node : forall (t : trie V) c a k v (s : ntree) (sd : bool),
  nstate t (nplug c (if sd then N a k (Some v) s E else N a k (Some v) E s)) ->
  exists t', prune t (S (t_next t)) a = Ok t' /\ NInv t' (nvals s ++ nvals_ctx c).
Proof.
  intros t c a k v s sd Hst. set (s0 := if sd then N a k (Some v) s E else N a k (Some v) E s) in *.
  destruct (nat_state t c s0 Hst) as (D1 & D2 & D3 & D4 & D5 & D6 & D7 & D8 & D9).
  pose proof Hst as (HR & _ & Hnd & Hlt & Hlist & Hwf).
  assert (Oa : oaddr s0 = Some a) by (subst s0; destruct sd; reflexivity).
  assert (Ok0 : okey s0 = Some k) by (subst s0; destruct sd; reflexivity).
  assert (Fp : nfp s0 = a :: nfp s) by (subst s0; destruct sd; cbn; rewrite ?app_nil_r; reflexivity).
  assert (Rs : t_heap t a = Some (Node (if sd then oaddr s else None) (if sd then None else oaddr s) (ncpar c) (Some v) k) /\ nrep (t_heap t) (Some a) s)
    by (subst s0; destruct sd; cbn [nrep oaddr] in D2; tauto).
  destruct Rs as (Ha & Hs).
  assert (Ws : nwf s /\ below k (okey s)) by (subst s0; destruct sd; cbn [nwf] in D9; tauto). destruct Ws as (Ws & Bs).
  rewrite Oa in D1. rewrite Ok0 in D8. rewrite Fp in D3, D5, D6.
  pose proof (nfp_plug c s0) as Hfp. rewrite Fp in Hfp. cbn [app] in Hfp.
  assert (NdA : NoDup (a :: nfp s ++ nfp_ctx c)) by (eapply Permutation_NoDup; [exact Hfp|exact Hnd]).
  assert (PlA : Permutation (t_list t) (a :: nfp s ++ nfp_ctx c)) by (rewrite Hlist; exact Hfp).
  assert (LtA : forall p, In p (a :: nfp s ++ nfp_ctx c) -> (p < t_next t)%nat).
  { intros p Hp. apply Hlt. eapply Permutation_in; [symmetry; exact Hfp|exact Hp]. }
  clearbody s0.
  destruct s as [|a1 k1 ov1 l1 r1].
  2:{ (* one child takes its place *)
    remember (N a1 k1 ov1 l1 r1) as s eqn:Es.
    assert (As : oaddr s = Some a1) by (subst s; reflexivity). assert (Ks : okey s = Some k1) by (subst s; reflexivity).
    rewrite As in Ha.
    destruct (nprune_splice t c a k (Some v) s a1 sd (t_next t) As Ha D1 Hs NdA) as (t' & P1 & P2 & P3 & P4 & P5).
    exists t'. split; [exact P1|]. exists (nplug c s). split; [|apply nvals_plug].
    apply (nstate_minus t t' c s a (a :: nfp s ++ nfp_ctx c)); auto; [intros p Hp; right; exact Hp|].
    rewrite Ks in *. cbn [below] in Bs. eapply nwf_ctx_mono; [exact D8|apply Bs]. }
  cbn [nfp app nvals oaddr] in *. assert (Nac : ~ In a (nfp_ctx c)) by (apply NoDup_cons_iff in NdA; tauto).
  replace (if sd then @None nat else None) with (@None nat) in Ha by (destruct sd; reflexivity).
  destruct (nget_parent_slot t c a _ D1 Ha eq_refl Nac) as (sl & Esl & Hsl).
  remember (t_next t) as fu.
  cbn [prune]. rewrite Esl. unfold deref at 1. rewrite Ha. cbn [bind n_left n_right n_parent].
  destruct c as [|[side pa pk pov sib] c].
  - subst sl. cbn [write_slot bind ncpar]. eexists. split; [reflexivity|].
    exists E. split; [|reflexivity]. unfold nstate. cbn [nfp nrep nwf oaddr t_root set_root free list_del t_list t_next].
    split; [reflexivity|]. split; [exact Logic.I|]. split; [constructor|]. split; [intros p []|]. split; [|exact Logic.I].
    cbn [nfp_ctx] in PlA. apply Permutation_sym, Permutation_length_1_inv in PlA. rewrite PlA. cbn. rewrite Nat.eqb_refl. constructor.
  - cbn [ncpar nrep_ctx nfp_ctx nvals_ctx nwf_ctx] in *. destruct D1 as (Hpa & Hsib & Hc).
    destruct D8 as (B1 & B2 & B3 & B4 & Wsib & Wc). cbn [below] in B1.
    assert (Dpa : pa <> a) by (intros ->; apply Nac; left; reflexivity).
    apply NoDup_cons_iff in D4. destruct D4 as [Npa D4].
    assert (Pl : Permutation (filter (fun q => negb (q =? a)%nat) (t_list t)) (pa :: nfp sib ++ nfp_ctx c)).
    { apply filter_perm_remove; [exact PlA|exact NdA]. }
    assert (Hne : forall p, In p (nfp sib) \/ In p (nfp_ctx c) -> p <> pa /\ p <> a).
    { intros p Hp. split; intros ->.
      - apply Npa. apply in_or_app. tauto.
      - apply Nac. right. apply in_or_app. tauto. }
    assert (X : exists t1, write_slot t sl None = Ok t1 /\ t_root t1 = t_root t /\ t_list t1 = t_list t /\ t_next t1 = t_next t /\
       t_heap t1 pa = Some (Node (if side then oaddr sib else None) (if side then None else oaddr sib) (ncpar c) pov pk) /\
       forall q, q <> pa -> t_heap t1 q = t_heap t q).
    { destruct side; subst sl; cbn [write_slot]; run; (eexists; split; [reflexivity|]; cbn [t_heap t_list t_next t_root]; eqb_tac;
        repeat split; try reflexivity; intros q Hq; eqb_tac; reflexivity). }
    destruct X as (t1 & E1 & R1 & L1 & N1 & Hpa1 & Hq1). rewrite E1. cbn [bind].
    set (t2 := free (list_del t1 a) a).
    assert (Hh2 : forall q, q <> a -> t_heap t2 q = t_heap t1 q).
    { intros q Hq. subst t2. cbn. unfold hupd. rewrite (proj2 (Nat.eqb_neq q a)) by exact Hq. reflexivity. }
    assert (Hpa2 : t_heap t2 pa = Some (Node (if side then oaddr sib else None) (if side then None else oaddr sib) (ncpar c) pov pk))
      by (rewrite Hh2 by exact Dpa; exact Hpa1).
    assert (Hc2 : nrep_ctx (t_heap t2) (t_root t2) c (Some pa) /\ nrep (t_heap t2) (Some pa) sib).
    { replace (t_root t2) with (t_root t) by (subst t2; cbn; auto).
      split; [eapply nrep_ctx_ext; [|exact Hc]|eapply nrep_ext; [|exact Hsib]]; intros p Hp;
        (destruct (Hne p) as (X1 & X2); [tauto|]; rewrite Hh2, Hq1; auto). }
    destruct Hc2 as (Hc2 & Hs2).
    assert (L2 : t_list t2 = filter (fun q => negb (q =? a)%nat) (t_list t)) by (subst t2; cbn; rewrite L1; reflexivity).
    assert (N2 : t_next t2 = t_next t) by (subst t2; cbn; exact N1).
    clearbody t2.
    unfold deref at 1. rewrite Hpa2. cbn [bind n_val].
    destruct pov as [pv|].
    + (* the parent is white: it stays *)
      exists t2. split; [reflexivity|]. cbn [own app].
      set (s1 := if side then N pa pk (Some pv) sib E else N pa pk (Some pv) E sib).
      assert (S1 : nrep (t_heap t2) (ncpar c) s1 /\ oaddr s1 = Some pa /\ okey s1 = Some pk /\ nfp s1 = pa :: nfp sib /\ nvals s1 = (pk, pv) :: nvals sib /\ nwf s1).
      { subst s1. destruct side; cbn [nrep oaddr okey nfp nvals own app nwf]; rewrite ?app_nil_r; repeat split; auto; try discriminate;
          try exact Logic.I; cbn [okey below apart]; try exact Logic.I; destruct (okey sib); cbn; auto. }
      destruct S1 as (S1 & S2 & S3 & S4 & S5 & S6).
      exists (nplug c s1). split; [|rewrite nvals_plug, S5; reflexivity].
      apply (nstate_minus t t2 c s1 a (pa :: nfp sib ++ nfp_ctx c)); rewrite ?S4, ?S2, ?S3; auto.
      * intros p Hp. rewrite <- Heqfu. apply LtA. right. exact Hp.
    + (* the parent is black: its other child takes its place *)
      destruct (B4 eq_refl) as (_ & Nsib). destruct sib as [|ab kb ovb lb rb]; [congruence|].
      remember (N ab kb ovb lb rb) as sib eqn:Esib.
      assert (As : oaddr sib = Some ab) by (subst sib; reflexivity). assert (Ks : okey sib = Some kb) by (subst sib; reflexivity).
      rewrite As in Hpa2. destruct fu as [|fu]; [specialize (D7 pa (or_introl eq_refl)); lia|].
      assert (NdB : NoDup (pa :: nfp sib ++ nfp_ctx c)) by (constructor; auto).
      destruct (nprune_splice t2 c pa pk None sib ab side fu As Hpa2 Hc2 Hs2 NdB) as (t' & P1 & P2 & P3 & P4 & P5).
      exists t'. split; [exact P1|]. cbn [own app]. exists (nplug c sib). split; [|apply nvals_plug].
      apply (nstate_minus t2 t' c sib pa (nfp sib ++ nfp_ctx c)); auto.
      * rewrite L2. exact Pl.
      * intros p Hp. rewrite N2, <- Heqfu. apply LtA. right. right. exact Hp.
      * rewrite Ks in *. cbn [below] in B2. eapply nwf_ctx_mono; [exact Wc|apply B2].
Qed.

(** The stored keys strictly inside [k] are one inside the other. *)
Definition chain_inside (tbl : list (key * V)) (k : key) : Prop :=
  forall k1 k2, In k1 (map fst tbl) -> In k2 (map fst tbl) -> strict k k1 -> strict k k2 -> overlap k1 k2.

Lemma nrm_ok : forall (t : trie V) tbl ok k, NInv t tbl -> (In k (map fst tbl) -> chain_inside tbl k) ->
  exists r t' tbl', rtrie_rm t ok k = Ok (r, t') /\ spec_step tbl (TRm ok k) r tbl' /\ NInv t' tbl'.
Proof.
  intros t tbl ok k Hinv Hchain. pose proof Hinv as (tr & Hst & Hperm).
  assert (Hnone : (forall v, ~ In (k, v) (nvals tr)) -> ~ In k (map fst tbl)).
  { intros Hn Hin. apply in_map_iff in Hin. destruct Hin as ([k' v'] & Ek & Hin). cbn in Ek. subst k'.
    apply (Hn v'). eapply Permutation_in; [symmetry; exact Hperm|exact Hin]. }
  pose proof Hst as (HR & Hrep & _ & _ & _ & Hwf).
  destruct (nfind_lcp t tr k true Hst) as [(Hn & Ef)|(c & s & -> & Hp & Hstop & Ef)]; unfold rtrie_rm; rewrite Ef; cbn [bind].
  - exists (Err ESRCH), t, tbl. split; [reflexivity|]. split; [|exact Hinv]. apply SRmNone. apply Hnone.
    intros v Hin. apply Hn. eapply nvals_ext; [exact Hwf|exact Hin].
  - destruct s as [|a k0 ov l r]; [destruct Hp|]. cbn [okey contains] in Hp.
    destruct (nat_state t c _ Hst) as (D1 & D2 & D3 & D4 & D5 & D6 & D7 & D8 & D9). cbn [okey] in D8.
    pose proof D2 as (Ha & Hrl & Hrr). pose proof D9 as (Bl & Br & Alr & Bw & Wl & Wr).
    (* every stored [k] is the node itself *)
    assert (Hself : forall v, In (k, v) (nvals (nplug c (N a k0 ov l r))) -> k0 = k /\ ov = Some v).
    { intros v Hin. pose proof (stop_matches c a k0 ov l r k k v Hwf Hp Hstop Hin (prefix_refl k)) as Hx.
      apply in_app_or in Hx. destruct Hx as [Hx|Hx].
      - destruct ov; cbn in Hx; [destruct Hx as [[= -> ->]|[]]; auto|destruct Hx].
      - pose proof (strict_len _ _ (path_above c k0 k v D8 Hx)). pose proof (prefix_len _ _ Hp). lia. }
    assert (Hmiss : (k0 <> k \/ ov = None) -> ~ In k (map fst tbl)).
    { intros Hm. apply Hnone. intros v Hin. destruct (Hself v Hin) as (-> & ->). destruct Hm; congruence. }
    cbn [nearest]. destruct ov as [v|].
    + unfold deref at 1. rewrite Ha. cbn [bind n_key n_left n_right].
      destruct (key_equals k0 k) eqn:Eeq; cbn [negb].
      2:{ exists (Err ESRCH), t, tbl. split; [reflexivity|]. split; [|exact Hinv]. apply SRmNone, Hmiss. left. intros ->.
          rewrite (proj2 (key_equals_spec k k) eq_refl) in Eeq. discriminate. }
      apply key_equals_spec in Eeq. subst k0.
      assert (Hone : l = E \/ r = E).
      { destruct l as [|al kl ovl ll lr] eqn:El; [auto|]. destruct r as [|ar kr ovr rl rr] eqn:Er; [auto|]. exfalso.
        rewrite <- El, <- Er in *.
        destruct (nvals_nonempty l Wl) as (k1 & v1 & I1); [subst l; discriminate|].
        destruct (nvals_nonempty r Wr) as (k2 & v2 & I2); [subst r; discriminate|].
        pose proof (nvals_ext _ _ _ Wl I1) as X1. pose proof (nvals_ext _ _ _ Wr I2) as X2.
        assert (Kl : okey l = Some kl) by (rewrite El; reflexivity). assert (Kr : okey r = Some kr) by (rewrite Er; reflexivity).
        rewrite Kl in *. rewrite Kr in *. cbn [contains below apart] in *.
        assert (P : forall x w, In (x, w) (nvals l) \/ In (x, w) (nvals r) -> In x (map fst tbl)).
        { intros x w Hi. apply (keys_of _ _ x w Hperm). eapply Permutation_in; [symmetry; apply nvals_plug|].
          apply in_or_app. left. cbn [nvals]. apply in_or_app. right. apply in_or_app. tauto. }
        assert (O : overlap k1 k2).
        { apply Hchain.
          - eapply keys_of; [exact Hperm|]. eapply Permutation_in; [symmetry; apply nvals_plug|]. left. reflexivity.
          - apply (P k1 v1). auto.
          - apply (P k2 v2). auto.
          - exact (strict_ext k kl k1 Bl X1).
          - exact (strict_ext k kr k2 Br X2). }
        revert O. apply (apart_ext kl); [|exact X1]. intros O. apply overlap_sym in O. revert O. apply (apart_ext kr); [|exact X2].
        intros O. apply Alr, overlap_sym, O. }
      assert (Hrm : exists t', prune t (S (t_next t)) a = Ok t' /\ NInv t' ((nvals l ++ nvals r) ++ nvals_ctx c)).
      { destruct Hone as [->| ->].
        - apply (nrm_node t c a k v r false). exact Hst.
        - cbn [nvals]; rewrite (app_nil_r (nvals l)). apply (nrm_node t c a k v l true). exact Hst. }
      destruct Hrm as (t' & E' & Hinv').
      assert (G : (match oaddr l, oaddr r with
        | Some l, Some r => match create_inode t ok k l r with
          | None => Ok (Err ENOMEM, t)
          | Some (new, t) => let! s := get_parent_ptr t a in let! t := write_slot t s (Some new) in
            let! t := set_parent t l (Some new) in let! t := set_parent t r (Some new) in
            Ok (OK, free (list_del (list_add t new) a) a) end
        | _, _ => let! t := prune t (S (t_next t)) a in Ok (OK, t) end) = Ok (OK, t')).
      { rewrite E'. cbn [bind]. destruct Hone as [->| ->]; cbn [oaddr]; [|destruct (oaddr l)]; reflexivity. }
      exists OK, t', ((nvals l ++ nvals r) ++ nvals_ctx c). split; [exact G|]. split; [|exact Hinv'].
      apply SRm with (v := v).
      * rewrite <- Hperm. apply (nvals_plug c (N a k (Some v) l r)).
      * intros Hin. apply in_map_iff in Hin. destruct Hin as ([k' v'] & Ek & Hin). cbn in Ek. subst k'.
        apply in_app_or in Hin. destruct Hin as [Hin|Hin].
        -- apply in_app_or in Hin. destruct Hin as [Hin|Hin]; (eapply nvals_ext in Hin; [|assumption]).
           ++ apply (proj1 Hstop). exact Hin.
           ++ apply (proj2 Hstop). exact Hin.
        -- pose proof (ctx_matches c k k k v' D8 (prefix_refl k) Hin (prefix_refl k)) as Hx.
           pose proof (strict_len _ _ (path_above c k k v' D8 Hx)). lia.
    + destruct (proj1 (nrep_plug c (t_heap t) (t_root t) _) (conj Hrep HR)) as (Hc & _).
      pose proof (near_path c _ _ _ Hc) as Hnear. destruct (near c) as [p|].
      * destruct Hnear as (n & v & rest & Hh & Hv & Hpath). unfold deref at 1. rewrite Hh. cbn [bind].
        assert (Hs : strict (n_key n) k0) by (apply (path_above c k0 _ v D8); rewrite Hpath; left; reflexivity).
        destruct (key_equals (n_key n) k) eqn:Eeq; cbn [negb].
        -- apply key_equals_spec in Eeq. rewrite Eeq in Hs. pose proof (strict_len _ _ Hs). pose proof (prefix_len _ _ Hp). lia.
        -- exists (Err ESRCH), t, tbl. split; [reflexivity|]. split; [|exact Hinv]. apply SRmNone, Hmiss. auto.
      * exists (Err ESRCH), t, tbl. split; [reflexivity|]. split; [|exact Hinv]. apply SRmNone, Hmiss. auto.
Qed.

Lemma nflush_ok : forall (t : trie V) tbl, NInv t tbl -> NInv (rtrie_flush t) [].
Proof.
  intros t tbl (tr & Hst & Hperm). exists E. split; [|constructor].
  destruct Hst as (HR & Hrep & _ & _ & Hl & _). unfold rtrie_flush.
  destruct (t_root t) as [a|] eqn:Er.
  - unfold nstate. cbn. repeat split; auto; try constructor; try (intros p []).
  - destruct tr; [|discriminate]. unfold nstate. cbn in *. rewrite Er. repeat split; auto; try constructor; try (intros p []).
Qed.

Lemma ninit : NInv (@rtrie_init V) [].
Proof. exists E. split; [|constructor]. unfold nstate. cbn. repeat split; auto; try constructor; try (intros p []). Qed.

(** Enumeration *)
Lemma nrep_node_in : forall (tr : ntree) h par p, nrep h par tr -> In p (nfp tr) -> exists n, h p = Some n.
Proof.
  induction tr as [|a k ov l IHl r IHr]; cbn [nrep nfp]; intros h par p Hr Hin; [destruct Hin|].
  destruct Hr as (Ha & Hl & Hrr). destruct Hin as [<-|Hin]; [eauto|].
  apply in_app_or in Hin. destruct Hin; eauto.
Qed.

Lemma vals_at_nvals : forall (tr : ntree) h par, nrep h par tr -> vals_at h (nfp tr) = map snd (nvals tr).
Proof.
  unfold vals_at. induction tr as [|a k ov l IHl r IHr]; cbn [nrep nfp nvals map flat_map]; intros h par Hr; [reflexivity|].
  destruct Hr as (Ha & Hl & Hrr). rewrite Ha. cbn [n_val]. rewrite flat_map_app, !map_app.
  rewrite (IHl _ _ Hl), (IHr _ _ Hrr). destruct ov; reflexivity.
Qed.

Lemma nforeach_ok : forall (t : trie V) tbl, NInv t tbl ->
  exists vs, rtrie_foreach t None = Ok (OK, vs) /\ Permutation vs (map snd tbl).
Proof.
  intros t tbl (tr & Hst & Hperm); unfold rtrie_foreach.
  destruct Hst as (HR & Hrep & Hnd & Hlt & Hlist & Hwf).
  assert (H : forall p, In p (t_list t) -> exists n, t_heap t p = Some n).
  { intros p Hp. eapply nrep_node_in; [exact Hrep|eapply Permutation_in; eauto]. }
  exists (vals_at (t_heap t) (t_list t)). split.
  + destruct (t_list t) as [|p l]; [reflexivity|]. rewrite foreach_all by exact H. reflexivity.
  + rewrite <- Hperm. rewrite <- (vals_at_nvals tr _ _ Hrep).
    unfold vals_at. apply Permutation_flat_map. exact Hlist.
Qed.

Lemma NInv_perm : forall (t : trie V) tbl tbl', NInv t tbl -> Permutation tbl tbl' -> NInv t tbl'.
Proof. intros t tbl tbl' (tr & H1 & H2) Hp. exists tr. split; auto. rewrite H2. exact Hp. Qed.

End Nest.
