Require Import Verif.Base Verif.Addr_Model Verif.Rtrie_Model Verif.Rtrie_Spec.

(** ** Keys *)
Lemma prefix_refl : forall k, prefix_of k k.
Proof. intros. exists []. rewrite app_nil_r. reflexivity. Qed.

Lemma prefix_trans : forall a b c, prefix_of a b -> prefix_of b c -> prefix_of a c.
Proof. intros a b c [s ->] [s' ->]. exists (s ++ s'). rewrite app_assoc. reflexivity. Qed.

Lemma prefix_len : forall a b, prefix_of a b -> (length a <= length b)%nat.
Proof. intros a b [s ->]. rewrite app_length. lia. Qed.

Lemma prefix_antisym : forall a b, prefix_of a b -> prefix_of b a -> a = b.
Proof.
  intros a b [s ->] H. apply prefix_len in H. rewrite app_length in H.
  destruct s; [rewrite app_nil_r; reflexivity|cbn in H; lia].
Qed.

Lemma prefix_cons : forall x y a b, prefix_of (x :: a) (y :: b) <-> x = y /\ prefix_of a b.
Proof.
  intros. split.
  - intros [s H]. injection H as -> ->. split; [reflexivity|]. exists s. reflexivity.
  - intros [-> [s ->]]. exists s. reflexivity.
Qed.

Lemma prefix_nil : forall k, prefix_of [] k.
Proof. intros. exists k. reflexivity. Qed.

(** Two prefixes of one string are comparable. *)
Lemma prefix_overlap : forall a b q, prefix_of a q -> prefix_of b q -> overlap a b.
Proof.
  induction a as [|x a IH]; intros b q Ha Hb; [left; apply prefix_nil|].
  destruct b as [|y b]; [right; apply prefix_nil|].
  destruct q as [|z q]; [destruct Ha as [? Ha]; discriminate|].
  apply prefix_cons in Ha. apply prefix_cons in Hb. destruct Ha as [-> Ha], Hb as [-> Hb].
  destruct (IH b q Ha Hb); [left|right]; apply prefix_cons; auto.
Qed.

Lemma overlap_sym : forall a b, overlap a b -> overlap b a.
Proof. unfold overlap. tauto. Qed.

Lemma lcp_firstn : forall a b, lcp (firstn (length a) a) (firstn (length a) b) = lcp a b.
Proof.
  induction a as [|x a IH]; intros b; [reflexivity|].
  destruct b as [|y b]; [reflexivity|].
  cbn [length firstn lcp]. destruct (Bool.eqb x y); [rewrite IH|]; reflexivity.
Qed.

Lemma lcp_firstn_min : forall a b,
  lcp (firstn (Nat.min (length a) (length b)) a) (firstn (Nat.min (length a) (length b)) b) = lcp a b.
Proof.
  induction a as [|x a IH]; intros b; [reflexivity|].
  destruct b as [|y b]; [reflexivity|].
  cbn [length Nat.min firstn lcp]. destruct (Bool.eqb x y); [rewrite IH|]; reflexivity.
Qed.

Lemma key_match_lcp : forall a b, key_match a b = lcp a b.
Proof. intros. unfold key_match, key_match_n. apply lcp_firstn_min. Qed.

Lemma lcp_prefix : forall a b, lcp a b = length a <-> prefix_of a b.
Proof.
  induction a as [|x a IH]; intros b; [split; [intros; apply prefix_nil|reflexivity]|].
  destruct b as [|y b]; cbn [lcp length].
  - split; [discriminate|]. intros [s H]. discriminate.
  - rewrite prefix_cons. destruct (Bool.eqb_spec x y).
    + subst. rewrite <- IH. split; [intros [=]; auto|intros [_ ->]; reflexivity].
    + split; [discriminate|tauto].
Qed.

Lemma key_contains_spec : forall a b, key_contains a b = true <-> prefix_of a b.
Proof.
  intros. unfold key_contains, key_match_n. rewrite lcp_firstn.
  destruct (Nat.leb_spec (length a) (length b)).
  - rewrite Nat.eqb_eq. apply lcp_prefix.
  - split; [discriminate|]. intros Hp. apply prefix_len in Hp. lia.
Qed.

Lemma key_contains_false : forall a b, key_contains a b = false <-> ~ prefix_of a b.
Proof. intros. rewrite <- key_contains_spec. symmetry. apply not_true_iff_false. Qed.

Lemma key_equals_spec : forall a b, key_equals a b = true <-> a = b.
Proof.
  intros. unfold key_equals, key_match_n. rewrite lcp_firstn.
  destruct (Nat.eqb_spec (length a) (length b)).
  - rewrite Nat.eqb_eq, lcp_prefix. split.
    + intros H. destruct H as [s ->]. rewrite app_length in e. destruct s; [rewrite app_nil_r; reflexivity|cbn in e; lia].
    + intros ->. apply prefix_refl.
  - split; [discriminate|congruence].
Qed.

Lemma lcp_comm : forall a b, lcp a b = lcp b a.
Proof.
  induction a as [|x a IH]; intros [|y b]; try reflexivity.
  cbn. rewrite IH. destruct x, y; reflexivity.
Qed.

(** Incomparable strings diverge at one bit. *)
Lemma diverge : forall a b, ~ overlap a b ->
  exists p x a' b', a = p ++ x :: a' /\ b = p ++ negb x :: b' /\ lcp a b = length p.
Proof.
  induction a as [|x a IH]; intros b H.
  - exfalso. apply H. left. apply prefix_nil.
  - destruct b as [|y b].
    + exfalso. apply H. right. apply prefix_nil.
    + cbn [lcp]. destruct (Bool.eqb_spec x y).
      * subst y. destruct (IH b) as (p & z & a' & b' & -> & -> & E).
        { intros [Ho|Ho]; apply H; [left|right]; apply prefix_cons; auto. }
        exists (x :: p), z, a', b'. rewrite E. auto.
      * exists [], x, a, b. cbn. repeat split. f_equal. destruct x, y; cbn; congruence.
Qed.

Lemma diverge_no_overlap : forall p x a b, ~ overlap (p ++ x :: a) (p ++ negb x :: b).
Proof.
  intros p x a b. induction p as [|y p IH]; cbn [app].
  - intros [H|H]; apply prefix_cons in H; destruct x; destruct H; discriminate.
  - intros [H|H]; apply prefix_cons in H; apply IH; [left|right]; tauto.
Qed.

Lemma prefix_app_inv : forall p a b, prefix_of (p ++ a) (p ++ b) <-> prefix_of a b.
Proof. induction p; cbn [app]; intros; [tauto|]. rewrite prefix_cons, IHp. tauto. Qed.

Lemma lcp_app : forall p a b, lcp (p ++ a) (p ++ b) = (length p + lcp a b)%nat.
Proof. induction p; cbn; intros; [reflexivity|]. rewrite Bool.eqb_reflx, IHp. reflexivity. Qed.

Lemma firstn_app_exact : forall (A : Type) (p a : list A), firstn (length p) (p ++ a) = p.
Proof. intros. rewrite firstn_app, Nat.sub_diag. cbn. rewrite firstn_all. apply app_nil_r. Qed.

Section Trie.
Context {V : Type}.

(** ** Trees of prefix-free tables, annotated with addresses *)
Inductive tree :=
| L (a : nat) (k : key) (v : V)
| B (a : nat) (k : key) (l r : tree).

Definition addr (t : tree) : nat := match t with L a _ _ => a | B a _ _ _ => a end.
Definition tkey (t : tree) : key := match t with L _ k _ => k | B _ k _ _ => k end.

Fixpoint fp (t : tree) : list nat :=
  match t with L a _ _ => [a] | B a _ l r => a :: fp l ++ fp r end.
Fixpoint leaves (t : tree) : list (key * V) :=
  match t with L _ k v => [(k, v)] | B _ _ l r => leaves l ++ leaves r end.

Fixpoint wf (t : tree) : Prop :=
  match t with
  | L _ _ _ => True
  | B _ k l r => (exists b, prefix_of (k ++ [b]) (tkey l) /\ prefix_of (k ++ [negb b]) (tkey r)) /\ wf l /\ wf r
  end.

Fixpoint rep (h : nat -> option (node V)) (par : option nat) (t : tree) : Prop :=
  match t with
  | L a k v => h a = Some (Node None None par (Some v) k)
  | B a k l r => h a = Some (Node (Some (addr l)) (Some (addr r)) par None k)
                 /\ rep h (Some a) l /\ rep h (Some a) r
  end.

(** Zippers *)
Inductive frame := Fr (side : bool) (a : nat) (k : key) (sib : tree).
Definition ctx := list frame.

Fixpoint plug (c : ctx) (t : tree) : tree :=
  match c with
  | [] => t
  | Fr false a k s :: c' => plug c' (B a k t s)
  | Fr true a k s :: c' => plug c' (B a k s t)
  end.
Definition cpar (c : ctx) : option nat :=
  match c with [] => None | Fr _ a _ _ :: _ => Some a end.

Fixpoint rep_ctx (h : nat -> option (node V)) (root : option nat) (c : ctx) (hole : nat) : Prop :=
  match c with
  | [] => root = Some hole
  | Fr side a k s :: c' =>
      h a = Some (Node (Some (if side then addr s else hole)) (Some (if side then hole else addr s)) (cpar c') None k)
      /\ rep h (Some a) s /\ rep_ctx h root c' a
  end.

Fixpoint fp_ctx (c : ctx) : list nat :=
  match c with [] => [] | Fr _ a _ s :: c' => a :: fp s ++ fp_ctx c' end.
Fixpoint leaves_ctx (c : ctx) : list (key * V) :=
  match c with [] => [] | Fr _ _ _ s :: c' => leaves s ++ leaves_ctx c' end.

Lemma rep_plug : forall c h root t,
  (rep h None (plug c t) /\ root = Some (addr (plug c t))) <-> (rep_ctx h root c (addr t) /\ rep h (cpar c) t).
Proof.
  induction c as [|[side a k s] c IH]; intros h root t; cbn [plug rep_ctx cpar].
  - tauto.
  - destruct side; rewrite IH; cbn [rep addr]; tauto.
Qed.

Lemma fp_plug : forall c t, Permutation (fp (plug c t)) (fp t ++ fp_ctx c).
Proof.
  induction c as [|[side a k s] c IH]; intros t; cbn [plug fp_ctx].
  - rewrite app_nil_r. apply Permutation_refl.
  - destruct side; rewrite IH; cbn [fp].
    + rewrite <- !app_comm_cons. rewrite <- Permutation_middle. apply perm_skip.
      rewrite (Permutation_app_comm (fp s)). rewrite <- app_assoc. reflexivity.
    + rewrite <- !app_comm_cons. rewrite <- Permutation_middle. apply perm_skip.
      rewrite <- app_assoc. reflexivity.
Qed.

Lemma leaves_plug : forall c t, Permutation (leaves (plug c t)) (leaves t ++ leaves_ctx c).
Proof.
  induction c as [|[side a k s] c IH]; intros t; cbn [plug leaves_ctx].
  - rewrite app_nil_r. apply Permutation_refl.
  - destruct side; rewrite IH; cbn [leaves].
    + rewrite (Permutation_app_comm (leaves s)). rewrite <- app_assoc. reflexivity.
    + rewrite <- app_assoc. reflexivity.
Qed.

(** wf of a plugged tree depends on the hole only through its key. *)
Fixpoint wf_ctx (c : ctx) (hole : key) : Prop :=
  match c with
  | [] => True
  | Fr side a k s :: c' =>
      (exists b, prefix_of (k ++ [b]) hole /\ prefix_of (k ++ [negb b]) (tkey s)) /\ wf s /\ wf_ctx c' k
  end.

Lemma wf_plug : forall c t, wf (plug c t) <-> wf_ctx c (tkey t) /\ wf t.
Proof.
  induction c as [|[side a k s] c IH]; intros t; cbn [plug wf_ctx].
  - tauto.
  - destruct side; rewrite IH; cbn [wf tkey]; split.
    + intros (H1 & (b & Hb1 & Hb2) & H2 & H3). repeat split; auto. exists (negb b). rewrite negb_involutive. auto.
    + intros (((b & Hb1 & Hb2) & H1 & H2) & H3). repeat split; auto. exists (negb b). rewrite negb_involutive. auto.
    + intros (H1 & (b & Hb1 & Hb2) & H2 & H3). repeat split; auto. exists b. auto.
    + intros (((b & Hb1 & Hb2) & H1 & H2) & H3). repeat split; auto. exists b. auto.
Qed.

Lemma wf_leaves_ext : forall t k v, wf t -> In (k, v) (leaves t) -> prefix_of (tkey t) k.
Proof.
  induction t as [a k0 v0|a k0 l IHl r IHr]; cbn [leaves tkey wf]; intros k v Hw Hin.
  - destruct Hin as [[= <- <-]|[]]. apply prefix_refl.
  - destruct Hw as ((b & H1 & H2) & Hl & Hr). apply in_app_or in Hin.
    assert (Hk : forall x y, prefix_of (k0 ++ [x]) y -> prefix_of k0 y).
    { intros x y Hp. eapply prefix_trans; [|exact Hp]. exists [x]. reflexivity. }
    destruct Hin as [Hin|Hin].
    + eapply prefix_trans; [eapply Hk, H1|eauto].
    + eapply prefix_trans; [eapply Hk, H2|eauto].
Qed.

Lemma leaves_nonempty : forall t, exists k v, In (k, v) (leaves t).
Proof.
  induction t as [a k v|a k l [k1 [v1 IH]] r _]; cbn [leaves].
  - exists k, v. left. reflexivity.
  - exists k1, v1. apply in_or_app. left. exact IH.
Qed.

(** Anything below the hole is incomparable with the leaves of the context. *)
Lemma ctx_incomparable : forall c hole k v q, wf_ctx c hole -> In (k, v) (leaves_ctx c) ->
  prefix_of hole q -> ~ overlap k q.
Proof.
  induction c as [|[side a k0 s] c IH]; cbn [leaves_ctx wf_ctx]; intros hole k v q Hw Hin Hq.
  - destruct Hin.
  - destruct Hw as ((b & H1 & H2) & Hs & Hc). apply in_app_or in Hin. destruct Hin as [Hin|Hin].
    + pose proof (wf_leaves_ext s k v Hs Hin) as Hk.
      assert (P1 : prefix_of (k0 ++ [b]) q) by (eapply prefix_trans; eauto).
      assert (P2 : prefix_of (k0 ++ [negb b]) k) by (eapply prefix_trans; eauto).
      destruct P1 as [s1 ->], P2 as [s2 ->]. rewrite <- !app_assoc. cbn [app].
      intros Ho. apply overlap_sym in Ho. revert Ho. apply diverge_no_overlap.
    + eapply IH; eauto. eapply prefix_trans; [|exact Hq].
      eapply prefix_trans; [|exact H1]. exists [b]. reflexivity.
Qed.

(** ** find_loop *)
Fixpoint size (t : tree) : nat := match t with L _ _ _ => 1 | B _ _ l r => S (size l + size r) end.

Lemma size_fp : forall t, length (fp t) = size t.
Proof. induction t; cbn; [reflexivity|]. rewrite app_length. lia. Qed.

Lemma rep_addr : forall h par t, rep h par t -> exists n, h (addr t) = Some n /\ n_key n = tkey t.
Proof. intros h par [a k v|a k l r]; cbn [rep addr tkey]; intros H; [|destruct H as [H _]]; rewrite H; eauto. Qed.

Definition stop (s : tree) (q : key) : Prop :=
  match s with
  | L _ _ _ => True
  | B _ _ l r => ~ prefix_of (tkey l) q /\ ~ prefix_of (tkey r) q
  end.

Lemma find_loop_ok : forall tr t par q fw fuel,
  rep (t_heap t) par tr -> prefix_of (tkey tr) q -> (size tr <= fuel)%nat ->
  exists c s, tr = plug c s /\ prefix_of (tkey s) q /\ stop s q /\
    find_loop t q fw fuel (addr tr) None =
      Ok (if fw then match s with L a _ _ => Some a | B _ _ _ _ => None end else Some (addr s)).
Proof.
  induction tr as [a k v|a k l IHl r IHr]; intros t par q fw fuel Hrep Hp Hf.
  - exists [], (L a k v). cbn [plug tkey stop]. repeat split; auto.
    destruct fuel; cbn [size] in Hf; [lia|]. cbn [find_loop addr]. unfold deref. cbn [rep] in Hrep. rewrite Hrep.
    cbn. destruct fw; reflexivity.
  - cbn [rep] in Hrep. destruct Hrep as (Ha & Hl & Hr).
    destruct (rep_addr _ _ _ Hl) as (nl & Hnl & Hkl). destruct (rep_addr _ _ _ Hr) as (nr & Hnr & Hkr).
    destruct fuel; cbn [size] in Hf; [lia|].
    assert (Hsl : (size l <= fuel)%nat) by lia. assert (Hsr : (size r <= fuel)%nat) by lia.
    cbn [find_loop addr]. unfold deref at 1. rewrite Ha. cbn [bind n_val n_left n_right].
    unfold deref at 1. rewrite Hnl. cbn [bind]. rewrite Hkl.
    destruct (key_contains (tkey l) q) eqn:El.
    + apply key_contains_spec in El.
      destruct (IHl t (Some a) q fw fuel Hl El Hsl) as (c & s & -> & Hs & Hst & E).
      exists (c ++ [Fr false a k r]), s. repeat split; auto.
      clear. revert s. induction c as [|[side a' k' s'] c IH]; intros s; cbn [plug app]; [reflexivity|].
      destruct side; apply IH.
    + apply key_contains_false in El.
      unfold deref at 1. rewrite Hnr. cbn [bind]. rewrite Hkr.
      destruct (key_contains (tkey r) q) eqn:Er.
      * apply key_contains_spec in Er.
        destruct (IHr t (Some a) q fw fuel Hr Er Hsr) as (c & s & -> & Hs & Hst & E).
        exists (c ++ [Fr true a k l]), s. repeat split; auto.
        clear. revert s. induction c as [|[side a' k' s'] c IH]; intros s; cbn [plug app]; [reflexivity|].
        destruct side; apply IH.
      * apply key_contains_false in Er.
        exists [], (B a k l r). cbn [plug tkey stop]. repeat split; auto.
Qed.

(** ** The state invariant *)
Definition tree_state (t : trie V) (tr : tree) : Prop :=
  t_root t = Some (addr tr) /\ rep (t_heap t) None tr /\ NoDup (fp tr) /\
  (forall p, In p (fp tr) -> (p < t_next t)%nat) /\
  Permutation (t_list t) (fp tr) /\ wf tr.

Definition Inv (t : trie V) (tbl : list (key * V)) : Prop :=
  (t_root t = None /\ t_list t = [] /\ tbl = []) \/
  (exists tr, tree_state t tr /\ Permutation (leaves tr) tbl).

Lemma tree_size : forall t tr, tree_state t tr -> (size tr <= t_next t)%nat.
Proof.
  intros t tr (_ & _ & Hnd & Hlt & _). rewrite <- size_fp.
  replace (t_next t) with (length (seq 0 (t_next t))) by apply seq_length.
  apply NoDup_incl_length; auto. intros p Hp. apply in_seq. specialize (Hlt p Hp). lia.
Qed.

(** What find_lcp finds in a well formed trie. *)
Lemma find_lcp_ok : forall t tr q fw, tree_state t tr ->
  (~ prefix_of (tkey tr) q /\ find_lcp t q fw = Ok None) \/
  (exists c s, tr = plug c s /\ prefix_of (tkey s) q /\ stop s q /\
     find_lcp t q fw = Ok (if fw then match s with L a _ _ => Some a | B _ _ _ _ => None end else Some (addr s))).
Proof.
  intros t tr q fw Hst. pose proof (tree_size t tr Hst) as Hsz.
  destruct Hst as (Hroot & Hrep & _). unfold find_lcp. rewrite Hroot.
  destruct (rep_addr _ _ _ Hrep) as (n & Hn & Hk). unfold deref. rewrite Hn. cbn [bind]. rewrite Hk.
  destruct (key_contains (tkey tr) q) eqn:E.
  - right. apply key_contains_spec in E. apply (find_loop_ok tr t None q fw); auto.
  - left. apply key_contains_false in E. auto.
Qed.

(** Leaves that contain a query can only be the one where the search stops. *)
Lemma stop_leaf : forall c s q k v, wf (plug c s) -> prefix_of (tkey s) q -> stop s q ->
  In (k, v) (leaves (plug c s)) -> overlap k q -> prefix_of k q \/ In (k, v) (leaves s).
Proof.
  intros c s q k v Hw Hp Hst Hin Ho. apply wf_plug in Hw. destruct Hw as [Hc Hs].
  apply (Permutation_in _ (leaves_plug c s)) in Hin. apply in_app_or in Hin. destruct Hin as [Hin|Hin]; auto.
  exfalso. eapply ctx_incomparable; eauto.
Qed.

Lemma stop_match : forall c s q k v, wf (plug c s) -> prefix_of (tkey s) q -> stop s q ->
  In (k, v) (leaves (plug c s)) -> prefix_of k q -> exists a, s = L a k v.
Proof.
  intros c s q k v Hw Hp Hst Hin Hk. apply wf_plug in Hw. destruct Hw as [Hc Hs].
  apply (Permutation_in _ (leaves_plug c s)) in Hin. apply in_app_or in Hin. destruct Hin as [Hin|Hin].
  - destruct s as [a k0 v0|a k0 l r]; cbn [leaves] in Hin.
    + destruct Hin as [[= <- <-]|[]]. eauto.
    + exfalso. cbn [wf] in Hs. destruct Hs as (_ & Hl & Hr). cbn [stop] in Hst. destruct Hst as [Sl Sr].
      apply in_app_or in Hin. destruct Hin as [Hin|Hin].
      * apply Sl. eapply prefix_trans; [eapply wf_leaves_ext; eauto|exact Hk].
      * apply Sr. eapply prefix_trans; [eapply wf_leaves_ext; eauto|exact Hk].
  - exfalso. eapply ctx_incomparable; eauto. left. exact Hk.
Qed.

Lemma find_ok : forall t tbl q, Inv t tbl -> exists r, rtrie_find t q = Ok r /\ longest_match tbl q r.
Proof.
  intros t tbl q [(Hroot & Hlist & ->)|(tr & Hst & Hperm)].
  - exists None. unfold rtrie_find, find_lcp. rewrite Hroot. split; [reflexivity|]. intros k v [].
  - destruct (find_lcp_ok t tr q true Hst) as [(Hn & E)|(c & s & -> & Hp & Hstop & E)].
    + exists None. unfold rtrie_find. rewrite E. split; [reflexivity|]. intros k v Hin Hk.
      apply Hn. destruct Hst as (_ & _ & _ & _ & _ & Hw).
      eapply prefix_trans; [|exact Hk]. eapply wf_leaves_ext; eauto. eapply Permutation_in; [symmetry; eauto|eauto].
    + destruct Hst as (Hroot & Hrep & Hnd & Hlt & Hlist & Hw).
      unfold rtrie_find. rewrite E. cbn [bind].
      destruct s as [a k v|a k l r].
      * assert (Hh : t_heap t a = Some (Node None None (cpar c) (Some v) k)).
        { assert (H := proj1 (rep_plug c (t_heap t) (Some (addr (plug c (L a k v)))) (L a k v)) (conj Hrep eq_refl)). apply H. }
        unfold deref. rewrite Hh. cbn [bind n_val]. exists (Some v). split; [reflexivity|].
        exists k. repeat split; auto.
        -- eapply Permutation_in; [eauto|]. eapply Permutation_in; [symmetry; apply leaves_plug|]. cbn. auto.
        -- intros k' v' Hin Hk'. destruct (stop_match c (L a k v) q k' v') as (a' & [= -> -> ->]); auto.
           eapply Permutation_in; [symmetry; eauto|auto].
      * exists None. split; [reflexivity|]. intros k' v' Hin Hk'.
        destruct (stop_match c (B a k l r) q k' v') as (a' & ?); auto; [|discriminate].
        eapply Permutation_in; [symmetry; eauto|auto].
Qed.

(** ** Frame reasoning *)
Lemma rep_ext : forall h h' tr par, (forall p, In p (fp tr) -> h' p = h p) -> rep h par tr -> rep h' par tr.
Proof.
  induction tr as [a k v|a k l IHl r IHr]; intros par Hext; cbn [rep fp] in *.
  - intros H. rewrite Hext by (left; reflexivity). exact H.
  - intros (H1 & H2 & H3). split; [rewrite Hext by (left; reflexivity); exact H1|].
    split; [apply IHl|apply IHr]; auto; intros p Hp; apply Hext; right; apply in_or_app; auto.
Qed.

Lemma rep_ctx_ext : forall c h h' root hole, (forall p, In p (fp_ctx c) -> h' p = h p) ->
  rep_ctx h root c hole -> rep_ctx h' root c hole.
Proof.
  induction c as [|[side a k s] c IH]; intros h h' root hole Hext; cbn [rep_ctx fp_ctx] in *; [auto|].
  intros (H1 & H2 & H3). split; [rewrite Hext by (left; reflexivity); exact H1|].
  split; [eapply rep_ext; [|exact H2]|eapply IH; [|exact H3]]; intros p Hp; apply Hext; right; apply in_or_app; auto.
Qed.

(** Changing the parent of a subtree's root. *)
Definition reparent (par : option nat) (n : node V) : node V :=
  Node (n_left n) (n_right n) par (n_val n) (n_key n).

Lemma rep_reparent : forall h h' tr par par', NoDup (fp tr) ->
  (forall p, In p (fp tr) -> p <> addr tr -> h' p = h p) ->
  (forall n, h (addr tr) = Some n -> h' (addr tr) = Some (reparent par' n)) ->
  rep h par tr -> rep h' par' tr.
Proof.
  intros h h' [a k v|a k l r] par par' Hnd Hext Ha; cbn [rep addr fp] in *.
  - intros H. rewrite (Ha _ H). reflexivity.
  - intros (H1 & H2 & H3). split; [rewrite (Ha _ H1); reflexivity|].
    apply NoDup_cons_iff in Hnd. destruct Hnd as [Hni Hnd].
    split; (eapply rep_ext; [|eassumption]); intros p Hp; apply Hext;
      try (right; apply in_or_app; auto); intros ->; apply Hni; apply in_or_app; auto.
Qed.

Lemma addr_in_fp : forall tr, In (addr tr) (fp tr).
Proof. destruct tr; cbn; auto. Qed.

End Trie.
