Require Import Verif.Base Verif.Addr_Model Verif.Rtrie_Model Verif.Rtrie_Spec Verif.Rtrie_Proofs.

Ltac eqb_tac := repeat match goal with
 | |- context [Nat.eqb ?x ?x] => rewrite (Nat.eqb_refl x)
 | |- context [Nat.eqb ?x ?y] => rewrite (proj2 (Nat.eqb_neq x y)) by lia
 end.

Ltac run := repeat (progress (unfold set_left, set_right, set_parent, deref, store, hupd, free, list_add, list_del, set_root;
   cbn [t_heap t_next t_root t_list bind n_left n_right n_parent n_val n_key]; eqb_tac;
   repeat match goal with H : ?h ?p = Some _ |- context [match ?h ?p with _ => _ end] => rewrite H end)).

Section Trie.
Context {V : Type}.
Notation tree := (@tree V).

Lemma tree_state_frame : forall (t t' : trie V) (tr : tree),
  tree_state t tr -> t_root t' = t_root t -> t_list t' = t_list t -> (t_next t <= t_next t')%nat ->
  (forall p, (p < t_next t)%nat -> t_heap t' p = t_heap t p) -> tree_state t' tr.
Proof.
  intros t t' tr (H1 & H2 & H3 & H4 & H5 & H6) Hr Hl Hn Hh.
  unfold tree_state. rewrite Hr, Hl. repeat split; auto.
  - eapply rep_ext; [|exact H2]. intros p Hp. apply Hh. auto.
  - intros p Hp. specialize (H4 p Hp). lia.
Qed.

(** ** add_full_collision *)
Lemma full_collision_run : forall (t : trie V) a new al ar pn ln rn nn small h1 h2 p len h1key,
  t_heap t a = Some pn -> t_heap t al = Some ln -> t_heap t ar = Some rn -> t_heap t new = Some nn ->
  a <> al -> a <> ar -> al <> ar -> new <> a -> new <> al -> new <> ar ->
  (a < t_next t)%nat -> (al < t_next t)%nat -> (ar < t_next t)%nat -> (new < t_next t)%nat ->
  (key_match (n_key ln) (n_key rn) < len)%nat ->
  p = firstn len h1key -> h1 = new -> h1key = n_key nn ->
  ((small = ar /\ h2 = al /\ len = key_match (n_key ln) (n_key nn) /\ (key_match (n_key rn) (n_key nn) < len)%nat) \/
   (small = al /\ h2 = ar /\ len = key_match (n_key rn) (n_key nn) /\ (key_match (n_key ln) (n_key nn) < len)%nat)) ->
  exists t', add_full_collision t true a new al ar = Ok (OK, t') /\
    t_root t' = t_root t /\ t_next t' = S (t_next t) /\ t_list t' = new :: t_next t :: t_list t /\
    t_heap t' a = Some (Node (Some small) (Some (t_next t)) (n_parent pn) (n_val pn) (n_key pn)) /\
    t_heap t' (t_next t) = Some (Node (Some new) (Some h2) (Some a) None p) /\
    t_heap t' new = Some (reparent (Some (t_next t)) nn) /\
    (forall n, t_heap t small = Some n -> t_heap t' small = Some (reparent (Some a) n)) /\
    (forall n, t_heap t h2 = Some n -> t_heap t' h2 = Some (reparent (Some (t_next t)) n)) /\
    (forall q, q <> a -> q <> al -> q <> ar -> q <> new -> q <> t_next t -> t_heap t' q = t_heap t q).
Proof.
  intros t a new al ar pn ln rn nn small h1 h2 p len h1key Ha Hl Hr Hn Dal Dar Dlr Dna Dnl Dnr La Ll Lr Ln Hlr -> -> -> HC.
  unfold add_full_collision.
  unfold deref at 1. rewrite Hl. cbn [bind]. unfold deref at 1. rewrite Hr. cbn [bind].
  unfold deref at 1. rewrite Hn. cbn [bind].
  destruct HC as [(-> & -> & -> & Hlt)|(-> & -> & -> & Hlt)].
  - match goal with |- context [if ?b1 && ?b2 then _ else if ?b3 && ?b4 then _ else _] =>
      replace (b1 && b2) with false by (symmetry; apply andb_false_iff; left; apply Nat.ltb_ge; lia);
      replace (b3 && b4) with true by (symmetry; apply andb_true_iff; split; apply Nat.ltb_lt; lia) end.
    unfold create_inode, alloc. run.
    eexists. split; [reflexivity|].
    cbn [t_heap t_next t_root t_list]. eqb_tac.
    rewrite ?Ha, ?Hl, ?Hr, ?Hn.
    repeat split; try reflexivity.
    all: try (intros n [= <-]; reflexivity).
    all: try (intros q; intros; eqb_tac; reflexivity).
  - match goal with |- context [if ?b1 && ?b2 then _ else if ?b3 && ?b4 then _ else if ?b5 && ?b6 then _ else _] =>
      replace (b1 && b2) with false by (symmetry; apply andb_false_iff; right; apply Nat.ltb_ge; lia);
      replace (b3 && b4) with false by (symmetry; apply andb_false_iff; right; apply Nat.ltb_ge; lia);
      replace (b5 && b6) with true by (symmetry; apply andb_true_iff; split; apply Nat.ltb_lt; lia) end.
    unfold create_inode, alloc. run.
    eexists. split; [reflexivity|].
    cbn [t_heap t_next t_root t_list]. eqb_tac.
    rewrite ?Ha, ?Hl, ?Hr, ?Hn.
    repeat split; try reflexivity.
    all: try (intros n [= <-]; reflexivity).
    all: try (intros q; intros; eqb_tac; reflexivity).
Qed.

Lemma full_collision_nomem : forall (t : trie V) a new al ar ln rn nn,
  t_heap t al = Some ln -> t_heap t ar = Some rn -> t_heap t new = Some nn ->
  ((key_match (n_key ln) (n_key rn) < key_match (n_key ln) (n_key nn))%nat /\
   (key_match (n_key rn) (n_key nn) < key_match (n_key ln) (n_key nn))%nat) \/
  ((key_match (n_key ln) (n_key rn) < key_match (n_key rn) (n_key nn))%nat /\
   (key_match (n_key ln) (n_key nn) < key_match (n_key rn) (n_key nn))%nat) ->
  add_full_collision t false a new al ar = Ok (Err ENOMEM, t).
Proof.
  intros t a new al ar ln rn nn Hl Hr Hn HC. unfold add_full_collision.
  unfold deref at 1. rewrite Hl. cbn [bind]. unfold deref at 1. rewrite Hr. cbn [bind].
  unfold deref at 1. rewrite Hn. cbn [bind].
  repeat match goal with |- context [if ?b1 && ?b2 then _ else _] => destruct b1 eqn:?, b2 eqn:?; cbn [andb] end;
  try reflexivity; exfalso;
  repeat match goal with H : (_ <? _)%nat = true |- _ => apply Nat.ltb_lt in H | H : (_ <? _)%nat = false |- _ => apply Nat.ltb_ge in H end; lia.
Qed.

Lemma prefix_split : forall a b, prefix_of a b -> a <> b -> exists x s, b = a ++ x :: s.
Proof.
  intros a b [[|x s] ->] H; [rewrite app_nil_r in H; congruence|]. eauto.
Qed.

Lemma ext_split : forall k b q, prefix_of (k ++ [b]) q -> exists s, q = k ++ b :: s.
Proof. intros k b q [s ->]. exists s. rewrite <- app_assoc. reflexivity. Qed.

Lemma nodup_app : forall (A : Type) (l1 l2 : list A), NoDup (l1 ++ l2) ->
  NoDup l1 /\ NoDup l2 /\ forall x, In x l1 -> In x l2 -> False.
Proof.
  induction l1 as [|a l1 IH]; cbn; intros l2 H.
  - repeat split; auto. constructor.
  - apply NoDup_cons_iff in H. destruct H as [Hn H]. destruct (IH l2 H) as (H1 & H2 & H3).
    repeat split; auto.
    + constructor; auto. intros Hi. apply Hn. apply in_or_app. auto.
    + intros x [->|Hx] Hx2; [apply Hn; apply in_or_app; auto|eauto].
Qed.

(** Facts about the place where a search stopped. *)
Lemma at_state : forall (t : trie V) c (s : tree), tree_state t (plug c s) ->
  rep_ctx (t_heap t) (t_root t) c (addr s) /\ rep (t_heap t) (cpar c) s /\
  NoDup (fp s) /\ NoDup (fp_ctx c) /\ (forall p, In p (fp s) -> In p (fp_ctx c) -> False) /\
  (forall p, In p (fp s) -> (p < t_next t)%nat) /\ (forall p, In p (fp_ctx c) -> (p < t_next t)%nat) /\
  wf_ctx c (tkey s) /\ wf s.
Proof.
  intros t c s (H1 & H2 & H3 & H4 & H5 & H6).
  destruct (proj1 (rep_plug c (t_heap t) (t_root t) s) (conj H2 H1)) as [Hc Hs].
  pose proof (Permutation_NoDup (fp_plug c s) H3) as Hnd. apply nodup_app in Hnd. destruct Hnd as (N1 & N2 & N3).
  apply wf_plug in H6. destruct H6.
  repeat split; auto; intros p Hp; apply H4; eapply Permutation_in; try (symmetry; apply fp_plug); apply in_or_app; auto.
Qed.

(** A key that only overlaps equal keys is not above any inner node. *)
Lemma fits_subtree : forall tbl k (tr u : tree) c,
  wf tr -> Permutation (leaves tr) tbl -> tr = plug c u ->
  (forall k', In k' (map fst tbl) -> overlap k k' -> k = k') ->
  prefix_of k (tkey u) -> k = tkey u.
Proof.
  intros tbl k tr u c Hw Hperm -> Hfit Hp. apply wf_plug in Hw. destruct Hw as [_ Hu].
  destruct (leaves_nonempty u) as (k' & v' & Hin).
  pose proof (wf_leaves_ext u k' v' Hu Hin) as Hk'.
  assert (E : k = k').
  { apply Hfit.
    - apply in_map_iff. exists (k', v'). split; auto. eapply Permutation_in; [exact Hperm|].
      eapply Permutation_in; [symmetry; apply leaves_plug|]. apply in_or_app. auto.
    - left. eapply prefix_trans; eauto. }
  subst k'. apply prefix_antisym; auto.
Qed.

Lemma leaves_key_in : forall (tr : tree) tbl k v, Permutation (leaves tr) tbl -> In (k, v) (leaves tr) -> In k (map fst tbl).
Proof.
  intros tr tbl k v Hp Hin. apply in_map_iff. exists (k, v). split; auto. eapply Permutation_in; eauto.
Qed.

Lemma plug_app : forall c1 c2 (t : tree), plug (c1 ++ c2) t = plug c2 (plug c1 t).
Proof.
  induction c1 as [|[side a k s] c1 IH]; intros c2 t; [reflexivity|]. cbn [app plug]. destruct side; apply IH.
Qed.

(** Replacing the subtree at the hole. *)
Lemma state_replace : forall (t t' : trie V) c (s s' : tree) extra,
  tree_state t (plug c s) ->
  t_root t' = t_root t ->
  addr s' = addr s -> tkey s' = tkey s -> wf s' ->
  rep (t_heap t') (cpar c) s' ->
  (forall p, In p (fp_ctx c) -> t_heap t' p = t_heap t p) ->
  Permutation (extra ++ fp s) (fp s') -> NoDup extra ->
  (forall p, In p extra -> ~ In p (fp (plug c s)) /\ (p < t_next t')%nat) -> (t_next t <= t_next t')%nat ->
  Permutation (t_list t') (extra ++ t_list t) ->
  tree_state t' (plug c s').
Proof.
  intros t t' c s s' extra Hst Hroot Ha Hk Hw Hrep Hext Hfp Hnd Hex Hnext Hlist.
  pose proof Hst as (HR & Hrep0 & Hnd0 & Hlt & Hl & Hwf).
  destruct (at_state t c s Hst) as (A1 & A2 & A3 & A4 & A5 & A6 & A7 & A8 & A9).
  assert (Hperm : Permutation (extra ++ fp (plug c s)) (fp (plug c s'))).
  { rewrite !fp_plug. rewrite <- Hfp. rewrite <- app_assoc. reflexivity. }
  assert (Hboth : rep (t_heap t') None (plug c s') /\ t_root t' = Some (addr (plug c s'))).
  { apply rep_plug. split; auto. rewrite Ha, Hroot. eapply rep_ctx_ext; eauto. }
  destruct Hboth as [B1 B2].
  unfold tree_state. repeat split; auto.
  - eapply Permutation_NoDup; [exact Hperm|].
    assert (Hdisj : forall x, In x extra -> In x (fp (plug c s)) -> False).
    { intros x Hx1 Hx2. specialize (Hex x Hx1). tauto. }
    clear - Hnd Hnd0 Hdisj. induction extra as [|x l IH]; cbn; auto.
    apply NoDup_cons_iff in Hnd. destruct Hnd as [N1 N2]. constructor.
    + intros Hi. apply in_app_or in Hi. destruct Hi; [tauto|]. eapply Hdisj; [left; reflexivity|auto].
    + apply IH; auto. intros y Hy. apply Hdisj. right. auto.
  - intros p Hp. apply (Permutation_in _ (Permutation_sym Hperm)) in Hp. apply in_app_or in Hp.
    destruct Hp as [Hp|Hp]; [apply Hex in Hp; lia|]. specialize (Hlt p Hp). lia.
  - rewrite Hlist. rewrite <- Hperm. apply Permutation_app_head. exact Hl.
  - apply wf_plug. rewrite Hk. auto.
Qed.

Lemma overlap_dec_eq : forall tbl k, (forall k', In k' (map (@fst key V) tbl) -> overlap k k' -> k = k') ->
  forall k', In k' (map fst tbl) -> k' <> k -> ~ overlap k' k.
Proof. intros tbl k H k' Hin Hne Ho. apply Hne. symmetry. apply H; auto. apply overlap_sym; auto. Qed.

(** The outcome of add_full_collision, seen on trees: [S] stays under the
    parent, [H] moves under the new inode next to the new leaf. *)
Lemma black_fin : forall (t t' : trie V) c a k0 (l r S H : tree) k v new p y dh dk b k',
  tree_state t (plug c (B a k0 l r)) ->
  Permutation (fp S ++ fp H) (fp l ++ fp r) -> Permutation (leaves S ++ leaves H) (leaves l ++ leaves r) ->
  wf S -> wf H -> rep (t_heap t) (Some a) S -> rep (t_heap t) (Some a) H ->
  prefix_of (k0 ++ [b]) (tkey H) -> prefix_of (k0 ++ [negb b]) (tkey S) ->
  k = k0 ++ b :: k' -> tkey H = p ++ y :: dh -> k = p ++ negb y :: dk -> (length k0 < length p)%nat ->
  ~ In new (fp (plug c (B a k0 l r))) -> (new < t_next t)%nat ->
  t_heap t new = Some (Node None None None (Some v) k) ->
  t_root t' = t_root t -> t_next t' = Datatypes.S (t_next t) -> t_list t' = new :: t_next t :: t_list t ->
  t_heap t' a = Some (Node (Some (addr S)) (Some (t_next t)) (cpar c) None k0) ->
  t_heap t' (t_next t) = Some (Node (Some new) (Some (addr H)) (Some a) None p) ->
  t_heap t' new = Some (Node None None (Some (t_next t)) (Some v) k) ->
  (forall n, t_heap t (addr S) = Some n -> t_heap t' (addr S) = Some (reparent (Some a) n)) ->
  (forall n, t_heap t (addr H) = Some n -> t_heap t' (addr H) = Some (reparent (Some (t_next t)) n)) ->
  (forall q, q <> a -> q <> addr S -> q <> addr H -> q <> new -> q <> t_next t -> t_heap t' q = t_heap t q) ->
  tree_state t' (plug c (B a k0 S (B (t_next t) p (L new k v) H))) /\
  Permutation (leaves (plug c (B a k0 S (B (t_next t) p (L new k v) H)))) ((k, v) :: leaves (plug c (B a k0 l r))).
Proof.
  intros t t' c a k0 l r S H k v new p y dh dk b k' Hst PFP PLV WS WH RS RH HbH HbS Ek DH Dk Hlen
    Hnew Hnewlt Hnn F1 F2 F3 F4 F5 F6 F7 F8 F9.
  destruct (at_state t c _ Hst) as (A1 & A2 & A3 & A4 & A5 & A6 & A7 & A8 & A9).
  cbn [fp] in A3, A5, A6.
  assert (PF : Permutation (a :: fp S ++ fp H) (a :: fp l ++ fp r)) by (apply perm_skip; auto).
  apply (Permutation_NoDup (Permutation_sym PF)) in A3.
  assert (A5' : forall q, In q (a :: fp S ++ fp H) -> In q (fp_ctx c) -> False).
  { intros q Hq. apply A5. eapply Permutation_in; eauto. }
  assert (A6' : forall q, In q (a :: fp S ++ fp H) -> (q < t_next t)%nat).
  { intros q Hq. apply A6. eapply Permutation_in; eauto. }
  assert (Hnew' : forall q, In q (a :: fp S ++ fp H) -> new <> q).
  { intros q Hin ->. apply Hnew. eapply Permutation_in; [symmetry; apply fp_plug|]. apply in_or_app. left.
    cbn [fp]. eapply Permutation_in; eauto. }
  assert (Hnewc : forall q, In q (fp_ctx c) -> new <> q).
  { intros q Hin ->. apply Hnew. eapply Permutation_in; [symmetry; apply fp_plug|]. apply in_or_app. right. exact Hin. }
  clear A5 A6. apply NoDup_cons_iff in A3. destruct A3 as [Na NSH]. apply nodup_app in NSH. destruct NSH as (NS & NH & DSH).
  assert (InS : forall q, In q (fp S) -> In q (a :: fp S ++ fp H)) by (intros; right; apply in_or_app; auto).
  assert (InH : forall q, In q (fp H) -> In q (a :: fp S ++ fp H)) by (intros; right; apply in_or_app; auto).
  assert (Hk0p : prefix_of (k0 ++ [b]) p).
  { destruct (prefix_overlap (k0 ++ [b]) p k) as [Ho|Ho].
    - exists k'. rewrite Ek, <- app_assoc. reflexivity.
    - exists (negb y :: dk). exact Dk.
    - exact Ho.
    - pose proof (prefix_len _ _ Ho) as Hle. rewrite app_length in Hle. cbn in Hle.
      destruct Ho as [s Es]. assert (Hx : length (k0 ++ [b]) = (length p + length s)%nat) by (rewrite Es, app_length; reflexivity).
      rewrite app_length in Hx. cbn in Hx. destruct s; [|cbn in Hx; lia]. rewrite app_nil_r in Es. rewrite Es. apply prefix_refl. }
  split.
  - apply (state_replace t t' c (B a k0 l r) _ [new; t_next t]); auto.
    + cbn [wf tkey]. split; [|split; [exact WS|split; [|split; [exact I|exact WH]]]].
      * exists (negb b). rewrite negb_involutive. auto.
      * exists (negb y). rewrite negb_involutive. rewrite Dk, DH. split; [exists dk|exists dh]; rewrite <- app_assoc; reflexivity.
    + cbn [rep addr]. split; [exact F4|].
      split; [|split; [exact F5|split; [exact F6|]]].
      * eapply rep_reparent; [exact NS| |exact F7|exact RS].
        intros q Hq Hqn. apply F9; auto.
        -- intros ->. apply Na. apply in_or_app. auto.
        -- intros ->. apply (DSH (addr H)); auto. apply addr_in_fp.
        -- intros ->. apply (Hnew' new); auto.
        -- intros ->. apply InS, A6' in Hq. lia.
      * eapply rep_reparent; [exact NH| |exact F8|exact RH].
        intros q Hq Hqn. apply F9; auto.
        -- intros ->. apply Na. apply in_or_app. auto.
        -- intros ->. apply (DSH (addr S)); auto. apply addr_in_fp.
        -- intros ->. apply (Hnew' new); auto.
        -- intros ->. apply InH, A6' in Hq. lia.
    + intros q Hq. apply F9.
      * intros ->. eapply A5'; eauto. left. reflexivity.
      * intros ->. eapply A5'; eauto. apply InS, addr_in_fp.
      * intros ->. eapply A5'; eauto. apply InH, addr_in_fp.
      * intros ->. eapply Hnewc; eauto.
      * intros ->. apply A7 in Hq. lia.
    + cbn [fp app]. rewrite <- PF.
      apply (Permutation_count_occ Nat.eq_dec). intros z.
      repeat (rewrite ?count_occ_app; cbn [count_occ app]).
      destruct (Nat.eq_dec new z), (Nat.eq_dec (t_next t) z), (Nat.eq_dec a z); repeat (rewrite ?count_occ_app; cbn [count_occ app]); lia.
    + constructor; [cbn; lia|]. constructor; [cbn; tauto|constructor].
    + intros q [<-|[<-|[]]]; (split; [auto|lia]).
      intros Hin. destruct Hst as (_ & _ & _ & Hlt & _). apply Hlt in Hin. lia.
    + lia.
    + rewrite F3. reflexivity.
  - rewrite !leaves_plug. cbn [leaves app].
    rewrite app_comm_cons. apply Permutation_app_tail.
    rewrite <- Permutation_middle. apply perm_skip. exact PLV.
Qed.

(** Adding below a black node. *)
Lemma add_at_black : forall (t : trie V) tbl c a k0 (l r : tree) k v ok2 new nn,
  tree_state t (plug c (B a k0 l r)) -> Permutation (leaves (plug c (B a k0 l r))) tbl ->
  (forall k', In k' (map fst tbl) -> overlap k k' -> k = k') ->
  prefix_of k0 k -> ~ prefix_of (tkey l) k -> ~ prefix_of (tkey r) k ->
  ~ In new (fp (plug c (B a k0 l r))) -> (new < t_next t)%nat ->
  t_heap t new = Some nn -> nn = Node None None None (Some v) k ->
  k0 <> k /\ key_contains k (tkey l) = false /\ key_contains k (tkey r) = false /\
  (ok2 = false -> add_full_collision t ok2 a new (addr l) (addr r) = Ok (Err ENOMEM, t)) /\
  (ok2 = true -> exists t' s', add_full_collision t ok2 a new (addr l) (addr r) = Ok (OK, t') /\
     tree_state t' (plug c s') /\ Permutation (leaves (plug c s')) ((k, v) :: tbl)).
Proof.
  intros t tbl c a k0 l r k v ok2 new nn Hst Hperm Hfit Hp Hnl Hnr Hnew Hnewlt Hnn ->.
  pose proof Hst as (_ & _ & _ & _ & Hlist & Hwf).
  destruct (at_state t c _ Hst) as (A1 & A2 & A3 & A4 & A5 & A6 & A7 & A8 & A9).
  cbn [fp] in A3, A5, A6. cbn [wf] in A9. destruct A9 as ((b & Hbl & Hbr) & Hwl & Hwr).
  cbn [rep] in A2. destruct A2 as (Ha & Hrl & Hrr).
  assert (Hkl : ~ prefix_of k (tkey l)).
  { intros Hx. apply Hnl. replace (tkey l) with k; [apply prefix_refl|].
    apply (fits_subtree tbl k (plug c (B a k0 l r)) l (Fr false a k0 r :: c)); auto. }
  assert (Hkr : ~ prefix_of k (tkey r)).
  { intros Hx. apply Hnr. replace (tkey r) with k; [apply prefix_refl|].
    apply (fits_subtree tbl k (plug c (B a k0 l r)) r (Fr true a k0 l :: c)); auto. }
  assert (Hne : k0 <> k).
  { intros ->. apply Hkl. eapply prefix_trans; [|exact Hbl]. exists [b]. reflexivity. }
  assert (Hol : ~ overlap (tkey l) k) by (unfold overlap; tauto).
  assert (Hor : ~ overlap (tkey r) k) by (unfold overlap; tauto).
  split; [exact Hne|]. split; [apply key_contains_false; auto|]. split; [apply key_contains_false; auto|].
  destruct (rep_addr _ _ _ Hrl) as (ln & Hln & Kln). destruct (rep_addr _ _ _ Hrr) as (rn & Hrn & Krn).
  apply NoDup_cons_iff in A3. destruct A3 as [Na Nlr]. apply nodup_app in Nlr. destruct Nlr as (Nl & Nr & Dlr).
  assert (Dal : a <> addr l) by (intros E; apply Na; rewrite E; apply in_or_app; left; apply addr_in_fp).
  assert (Dar : a <> addr r) by (intros E; apply Na; rewrite E; apply in_or_app; right; apply addr_in_fp).
  assert (Dlr' : addr l <> addr r) by (intros E; apply (Dlr (addr l)); [|rewrite E]; apply addr_in_fp).
  assert (Hnew' : forall p, In p (a :: fp l ++ fp r) -> new <> p).
  { intros p Hin ->. apply Hnew. eapply Permutation_in; [symmetry; apply fp_plug|]. apply in_or_app. left. exact Hin. }
  assert (Dna : new <> a) by (apply Hnew'; left; reflexivity).
  assert (Dnl : new <> addr l) by (apply Hnew'; right; apply in_or_app; left; apply addr_in_fp).
  assert (Dnr : new <> addr r) by (apply Hnew'; right; apply in_or_app; right; apply addr_in_fp).
  assert (La : (a < t_next t)%nat) by (apply A6; left; reflexivity).
  assert (Ll : (addr l < t_next t)%nat) by (apply A6; right; apply in_or_app; left; apply addr_in_fp).
  assert (Lr : (addr r < t_next t)%nat) by (apply A6; right; apply in_or_app; right; apply addr_in_fp).
  destruct (prefix_split k0 k Hp Hne) as (x & k' & Ek).
  destruct (ext_split _ _ _ Hbl) as (l' & El). destruct (ext_split _ _ _ Hbr) as (r' & Er).
  assert (Mlr : key_match (n_key ln) (n_key rn) = length k0).
  { rewrite key_match_lcp, Kln, Krn, El, Er, lcp_app. cbn [lcp]. destruct b; cbn; lia. }
  assert (Dx : x = b \/ x = negb b) by (destruct x, b; auto).
  destruct Dx as [Dx|Dx]; subst x.
  - (* new goes with l *)
    assert (Mrn : key_match (n_key rn) k = length k0).
    { rewrite key_match_lcp, Krn, Er, Ek, lcp_app. cbn [lcp]. destruct b; cbn; lia. }
    assert (Mln : (length k0 < key_match (n_key ln) k)%nat).
    { rewrite key_match_lcp, Kln, El, Ek, lcp_app. cbn [lcp]. rewrite Bool.eqb_reflx. lia. }
    split.
    + intros ->. eapply full_collision_nomem; eauto. cbn [n_key]. left. lia.
    + intros ->. destruct (diverge _ _ Hol) as (p & y & dl & dk & Dl & Dk & Dlen).
      rewrite <- Kln, <- key_match_lcp in Dlen.
      destruct (full_collision_run t a new (addr l) (addr r) _ ln rn _ (addr r) new (addr l)
                  (firstn (key_match (n_key ln) k) k) (key_match (n_key ln) k) k Ha Hln Hrn Hnn)
        as (t' & E & F1 & F2 & F3 & F4 & F5 & F6 & F7 & F8 & F9); auto; try lia.
      { left. cbn [n_key]. repeat split; auto. lia. }
      assert (Ep : firstn (key_match (n_key ln) k) k = p) by (rewrite Dlen, Dk at 1; apply firstn_app_exact).
      rewrite Ep in *.
      destruct (black_fin t t' c a k0 l r r l k v new p y dl dk b k') as [G1 G2]; auto; try lia;
        try (apply Permutation_app_comm).
      exists t'. eexists. split; [exact E|]. split; [exact G1|]. rewrite G2. apply perm_skip. exact Hperm.
  - (* new goes with r *)
    assert (Mln : key_match (n_key ln) k = length k0).
    { rewrite key_match_lcp, Kln, El, Ek, lcp_app. cbn [lcp]. destruct b; cbn; lia. }
    assert (Mrn : (length k0 < key_match (n_key rn) k)%nat).
    { rewrite key_match_lcp, Krn, Er, Ek, lcp_app. cbn [lcp]. rewrite Bool.eqb_reflx. lia. }
    split.
    + intros ->. eapply full_collision_nomem; eauto. cbn [n_key]. right. lia.
    + intros ->. destruct (diverge _ _ Hor) as (p & y & dr & dk & Dr & Dk & Dlen).
      rewrite <- Krn, <- key_match_lcp in Dlen.
      destruct (full_collision_run t a new (addr l) (addr r) _ ln rn _ (addr l) new (addr r)
                  (firstn (key_match (n_key rn) k) k) (key_match (n_key rn) k) k Ha Hln Hrn Hnn)
        as (t' & E & F1 & F2 & F3 & F4 & F5 & F6 & F7 & F8 & F9); auto; try lia.
      { right. cbn [n_key]. repeat split; auto. lia. }
      assert (Ep : firstn (key_match (n_key rn) k) k = p) by (rewrite Dlen, Dk at 1; apply firstn_app_exact).
      rewrite Ep in *.
      destruct (black_fin t t' c a k0 l r l r k v new p y dr dk (negb b) k') as [G1 G2]; auto; try lia.
      { rewrite negb_involutive. auto. }
      exists t'. eexists. split; [exact E|]. split; [exact G1|]. rewrite G2. apply perm_skip. exact Hperm.
Qed.
End Trie.
