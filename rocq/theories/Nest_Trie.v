(** The trie with nested keys (see [Rtrie_Hist] for tries without): invariant and
    lookups.  A node may be white and have children. *)
Require Import Verif.Base Verif.Addr_Model Verif.Rtrie_Model Verif.Rtrie_Spec Verif.Rtrie_Proofs Verif.Rtrie_Steps Verif.Rtrie_Hist.

Definition strict (a b : key) : Prop := prefix_of a b /\ a <> b.
Definition below (k : key) (o : option key) : Prop := match o with None => True | Some k' => strict k k' end.
Definition apart (o o' : option key) : Prop := match o, o' with Some x, Some y => ~ overlap x y | _, _ => True end.
Definition contains (o : option key) (q : key) : Prop := match o with None => False | Some k => prefix_of k q end.

Lemma strict_ext : forall a b c, strict a b -> prefix_of b c -> strict a c.
Proof.
  intros a b c (P & N) Q. split; [eapply prefix_trans; eauto|]. intros ->. apply N. apply prefix_antisym; auto.
Qed.
Lemma strict_len : forall a b, strict a b -> (length a < length b)%nat.
Proof.
  intros a b (P & N). destruct (prefix_split _ _ P N) as (x & s & ->). rewrite app_length. cbn. lia.
Qed.
Lemma apart_ext : forall x x' y, ~ overlap x y -> prefix_of x x' -> ~ overlap x' y.
Proof.
  intros x x' y N P [H|H]; apply N; [left; eapply prefix_trans; eauto|eapply prefix_overlap; eauto].
Qed.
Lemma apart_sym : forall o o', apart o o' -> apart o' o.
Proof. intros [x|] [y|] H; cbn in *; auto. intros O. apply H, overlap_sym, O. Qed.
Lemma prefix_cmp : forall a b q, prefix_of a q -> prefix_of b q -> (length a <= length b)%nat -> prefix_of a b.
Proof.
  intros a b q Ha Hb L. destruct (prefix_overlap a b q Ha Hb) as [H|H]; [exact H|].
  pose proof (prefix_len _ _ H). destruct H as (s & ->). rewrite app_length in *. destruct s; [|cbn in *; lia].
  rewrite app_nil_r. apply prefix_refl.
Qed.

(** Three keys that pairwise do not overlap: two of them agree for longer. *)
Lemma three : forall x y z : key, ~ overlap x y -> ~ overlap x z -> ~ overlap y z ->
  (lcp x y < lcp y z /\ lcp x z < lcp y z)%nat \/ (lcp x y < lcp x z /\ lcp y z < lcp x z)%nat \/
  (lcp x z < lcp x y /\ lcp y z < lcp x y)%nat.
Proof.
  induction x as [|a x IH]; intros [|b y] [|c z] H1 H2 H3;
    try (exfalso; apply H1; left; apply prefix_nil); try (exfalso; apply H1; right; apply prefix_nil);
    try (exfalso; apply H2; right; apply prefix_nil).
  cbn [lcp].
  assert (C : forall (d : bool) (p q : key), ~ overlap (d :: p) (d :: q) -> ~ overlap p q).
  { intros d p q H O. apply H. destruct O as [O|O]; [left|right]; apply prefix_cons; auto. }
  destruct (Bool.eqb a b) eqn:Eab, (Bool.eqb b c) eqn:Ebc, (Bool.eqb a c) eqn:Eac;
    try (destruct a, b, c; discriminate).
  2,3,4: lia.
  apply Bool.eqb_prop in Eab, Ebc. subst b c. destruct (IH y z) as [H|[H|H]]; eauto; lia.
Qed.

Lemma lcp_firstn_prefix : forall x y : key, prefix_of (firstn (lcp x y) x) x /\ prefix_of (firstn (lcp x y) x) y.
Proof.
  induction x as [|a x IH]; intros y; cbn [lcp]; [cbn; split; apply prefix_nil|].
  destruct y as [|b y]; [cbn; split; apply prefix_nil|].
  destruct (Bool.eqb a b) eqn:E; [|cbn; split; apply prefix_nil]. apply Bool.eqb_prop in E. subst b. cbn [firstn].
  destruct (IH y). split; apply prefix_cons; auto.
Qed.
Lemma lcp_le : forall x y : key, (lcp x y <= length x)%nat.
Proof. induction x as [|a x IH]; intros [|b y]; cbn; try lia. destruct (Bool.eqb a b); [specialize (IH y); lia|lia]. Qed.
Lemma prefix_lcp : forall p x y : key, prefix_of p x -> prefix_of p y -> (length p <= lcp x y)%nat.
Proof. intros p x y (s & ->) (s' & ->). rewrite lcp_app. lia. Qed.

(** The key of the inode over the two that agree for longer. *)
Lemma branch : forall k0 x y z, strict k0 x -> strict k0 y -> strict k0 z ->
  ~ overlap x y -> ~ overlap y z -> (lcp x y < lcp y z)%nat ->
  strict k0 (firstn (lcp y z) y) /\ strict (firstn (lcp y z) y) y /\ strict (firstn (lcp y z) y) z /\
  ~ overlap x (firstn (lcp y z) y).
Proof.
  intros k0 x y z (Px & Nx) (Py & Ny) (Pz & Nz) Oxy Oyz L. destruct (lcp_firstn_prefix y z) as (Q1 & Q2).
  assert (Lp : length (firstn (lcp y z) y) = lcp y z) by (rewrite firstn_length; pose proof (lcp_le y z); lia).
  set (p := firstn (lcp y z) y) in *.
  pose proof (prefix_lcp _ _ _ Px Py) as L0.
  repeat split; auto.
  - eapply prefix_cmp; [exact Py|exact Q1|lia].
  - intros ->. lia.
  - intros E. apply Oyz. left. rewrite <- E. exact Q2.
  - intros E. apply Oyz. right. rewrite <- E. exact Q1.
  - intros [H|H]; [apply Oxy; left; eapply prefix_trans; eauto|].
    pose proof (prefix_lcp _ _ _ H Q1). lia.
Qed.

Section Nest.
Context {V : Type}.

(** [E] is NULL. *)
Inductive ntree := E | N (a : nat) (k : key) (ov : option V) (l r : ntree).

Definition oaddr (t : ntree) : option nat := match t with E => None | N a _ _ _ _ => Some a end.
Definition okey (t : ntree) : option key := match t with E => None | N _ k _ _ _ => Some k end.
Definition own (k : key) (ov : option V) : list (key * V) := match ov with Some v => [(k, v)] | None => [] end.

Fixpoint nfp (t : ntree) : list nat := match t with E => [] | N a _ _ l r => a :: nfp l ++ nfp r end.
Fixpoint nvals (t : ntree) : list (key * V) := match t with E => [] | N _ k ov l r => own k ov ++ nvals l ++ nvals r end.

(** Children are strictly below and apart; a black node has both. *)
Fixpoint nwf (t : ntree) : Prop :=
  match t with
  | E => True
  | N _ k ov l r => below k (okey l) /\ below k (okey r) /\ apart (okey l) (okey r) /\
      (ov = None -> l <> E /\ r <> E) /\ nwf l /\ nwf r
  end.

Fixpoint nrep (h : nat -> option (node V)) (par : option nat) (t : ntree) : Prop :=
  match t with
  | E => True
  | N a k ov l r => h a = Some (Node (oaddr l) (oaddr r) par ov k) /\ nrep h (Some a) l /\ nrep h (Some a) r
  end.

(** Zippers *)
Inductive nframe := NFr (side : bool) (a : nat) (k : key) (ov : option V) (sib : ntree).
Definition nctx := list nframe.

Fixpoint nplug (c : nctx) (t : ntree) : ntree :=
  match c with
  | [] => t
  | NFr false a k ov s :: c' => nplug c' (N a k ov t s)
  | NFr true a k ov s :: c' => nplug c' (N a k ov s t)
  end.
Definition ncpar (c : nctx) : option nat := match c with [] => None | NFr _ a _ _ _ :: _ => Some a end.

Fixpoint nrep_ctx (h : nat -> option (node V)) (root : option nat) (c : nctx) (hole : option nat) : Prop :=
  match c with
  | [] => root = hole
  | NFr side a k ov s :: c' =>
      h a = Some (Node (if side then oaddr s else hole) (if side then hole else oaddr s) (ncpar c') ov k)
      /\ nrep h (Some a) s /\ nrep_ctx h root c' (Some a)
  end.

Fixpoint nfp_ctx (c : nctx) : list nat :=
  match c with [] => [] | NFr _ a _ _ s :: c' => a :: nfp s ++ nfp_ctx c' end.
Fixpoint nvals_ctx (c : nctx) : list (key * V) :=
  match c with [] => [] | NFr _ _ k ov s :: c' => own k ov ++ nvals s ++ nvals_ctx c' end.

(** Depends on the hole only through its key; [None]: the hole is NULL. *)
Fixpoint nwf_ctx (c : nctx) (hole : option key) : Prop :=
  match c with
  | [] => True
  | NFr side a k ov s :: c' => below k hole /\ below k (okey s) /\ apart hole (okey s) /\
      (ov = None -> hole <> None /\ s <> E) /\ nwf s /\ nwf_ctx c' (Some k)
  end.

Lemma nrep_plug : forall c h root t,
  (nrep h None (nplug c t) /\ root = oaddr (nplug c t)) <-> (nrep_ctx h root c (oaddr t) /\ nrep h (ncpar c) t).
Proof.
  induction c as [|[side a k ov s] c IH]; intros h root t; cbn [nplug nrep_ctx ncpar]; [tauto|].
  destruct side; rewrite IH; cbn [nrep oaddr]; tauto.
Qed.

Lemma nfp_plug : forall c t, Permutation (nfp (nplug c t)) (nfp t ++ nfp_ctx c).
Proof.
  induction c as [|[side a k ov s] c IH]; intros t; cbn [nplug nfp_ctx].
  - rewrite app_nil_r. apply Permutation_refl.
  - destruct side; rewrite IH; cbn [nfp]; rewrite <- !app_comm_cons, <- Permutation_middle; apply perm_skip.
    + rewrite (Permutation_app_comm (nfp s)). rewrite <- app_assoc. reflexivity.
    + rewrite <- app_assoc. reflexivity.
Qed.

Lemma perm_mid : forall {A} (o t s c : list A), Permutation (o ++ t ++ s ++ c) (t ++ o ++ s ++ c).
Proof. intros. rewrite !app_assoc. do 2 apply Permutation_app_tail. apply Permutation_app_comm. Qed.
Lemma perm_mid2 : forall {A} (o t s c : list A), Permutation (o ++ s ++ t ++ c) (t ++ o ++ s ++ c).
Proof. intros. rewrite !app_assoc. apply Permutation_app_tail. rewrite <- (app_assoc t). symmetry. apply (Permutation_app_comm t (o ++ s)). Qed.

Lemma nvals_plug : forall c t, Permutation (nvals (nplug c t)) (nvals t ++ nvals_ctx c).
Proof.
  induction c as [|[side a k ov s] c IH]; intros t; cbn [nplug nvals_ctx].
  - rewrite app_nil_r. apply Permutation_refl.
  - destruct side; rewrite IH; cbn [nvals]; rewrite <- !app_assoc; [apply perm_mid2|apply perm_mid].
Qed.

Lemma okey_none : forall t, okey t = None <-> t = E.
Proof. destruct t; cbn; split; congruence. Qed.

Lemma nwf_plug : forall c t, nwf (nplug c t) <-> nwf_ctx c (okey t) /\ nwf t.
Proof.
  induction c as [|[side a k ov s] c IH]; intros t; cbn [nplug nwf_ctx]; [tauto|].
  pose proof (okey_none t). pose proof (apart_sym (okey t) (okey s)). pose proof (apart_sym (okey s) (okey t)).
  destruct side; rewrite IH; cbn [nwf okey]; tauto.
Qed.

Lemma nplug_app : forall c1 c2 t, nplug (c1 ++ c2) t = nplug c2 (nplug c1 t).
Proof.
  induction c1 as [|[side a k ov s] c1 IH]; intros c2 t; [reflexivity|]. cbn [app nplug]. destruct side; apply IH.
Qed.

Lemma nvals_ext : forall t k v, nwf t -> In (k, v) (nvals t) -> contains (okey t) k.
Proof.
  induction t as [|a k0 ov l IHl r IHr]; cbn [nvals okey nwf contains]; intros k v Hw Hin; [destruct Hin|].
  destruct Hw as (Bl & Br & _ & _ & Wl & Wr).
  apply in_app_or in Hin. destruct Hin as [Hin|Hin].
  - destruct ov; cbn in Hin; [destruct Hin as [[= <- <-]|[]]|destruct Hin]. apply prefix_refl.
  - apply in_app_or in Hin. destruct Hin as [Hin|Hin].
    + specialize (IHl _ _ Wl Hin). destruct (okey l); cbn in *; [|destruct IHl]. eapply prefix_trans; [apply Bl|exact IHl].
    + specialize (IHr _ _ Wr Hin). destruct (okey r); cbn in *; [|destruct IHr]. eapply prefix_trans; [apply Br|exact IHr].
Qed.

Lemma nvals_nonempty : forall t, nwf t -> t <> E -> exists k v, In (k, v) (nvals t).
Proof.
  induction t as [|a k0 ov l IHl r IHr]; [congruence|]. cbn [nwf nvals]. intros (_ & _ & _ & B & Wl & _) _.
  destruct ov as [v|]; [exists k0, v; left; reflexivity|]. destruct (B eq_refl) as (Nl & _).
  destruct (IHl Wl Nl) as (k & v & H). exists k, v. cbn. apply in_or_app. auto.
Qed.

Fixpoint nsize (t : ntree) : nat := match t with E => 0 | N _ _ _ l r => S (nsize l + nsize r) end.
Lemma nsize_fp : forall t, length (nfp t) = nsize t.
Proof. induction t; cbn; [reflexivity|]. rewrite app_length. lia. Qed.

Lemma nrep_addr : forall h par t a, nrep h par t -> oaddr t = Some a ->
  exists n k, h a = Some n /\ okey t = Some k /\ n_key n = k /\ n_parent n = par.
Proof. intros h par [|a k ov l r] b; cbn; intros H [= <-]. destruct H as [H _]. rewrite H. eauto 6. Qed.

Lemma oaddr_okey : forall t, oaddr t = None <-> okey t = None.
Proof. destruct t; cbn; split; congruence. Qed.

(** ** Lookups *)
Definition nstop (s : ntree) (q : key) : Prop :=
  match s with E => True | N _ _ _ l r => ~ contains (okey l) q /\ ~ contains (okey r) q end.

Definition orelse (a b : option nat) : option nat := match a with Some _ => a | None => b end.
Fixpoint near (c : nctx) : option nat :=
  match c with
  | [] => None
  | NFr _ a _ ov _ :: c' => match ov with Some _ => Some a | None => near c' end
  end.
Definition nearest (c : nctx) (s : ntree) : option nat :=
  match s with N a _ (Some _) _ _ => Some a | _ => near c end.

Lemma near_app : forall c f, near (c ++ [f]) = orelse (near c) (near [f]).
Proof.
  induction c as [|[side a k ov s] c IH]; intros f; cbn [app near orelse]; [reflexivity|].
  destruct ov; [reflexivity|]. apply IH.
Qed.
Lemma nearest_app : forall c f s, nearest (c ++ [f]) s = orelse (nearest c s) (near [f]).
Proof. intros c f [|a k [v|] l r]; cbn [nearest]; try apply near_app. reflexivity. Qed.

Lemma child_test : forall h par t s q, nrep h par s -> t_heap t = h ->
  (match oaddr s with
   | None => Ok false
   | Some c => let! cn := deref t c in Ok (key_contains (n_key cn) q)
   end) = Ok (match okey s with None => false | Some k => key_contains k q end).
Proof.
  intros h par t s q Hr Hh. destruct s as [|a k ov l r]; [reflexivity|]. cbn [oaddr okey nrep] in *.
  unfold deref. rewrite Hh. destruct Hr as [-> _]. reflexivity.
Qed.

Lemma contains_dec : forall o q, (match o with None => false | Some k => key_contains k q end) = true <-> contains o q.
Proof. intros [k|] q; cbn; [apply key_contains_spec|split; [discriminate|tauto]]. Qed.

Lemma nfind_loop : forall tr t par q fw fuel lw a,
  oaddr tr = Some a -> nrep (t_heap t) par tr -> contains (okey tr) q -> (nsize tr <= fuel)%nat ->
  exists c s, tr = nplug c s /\ contains (okey s) q /\ nstop s q /\
    find_loop t q fw fuel a lw = Ok (if fw then orelse (nearest c s) lw else oaddr s).
Proof.
  induction tr as [|a k ov l IHl r IHr]; intros t par q fw fuel lw a0 Ha Hrep Hp Hf; [discriminate|].
  cbn [oaddr] in Ha. injection Ha as <-. cbn [nrep] in Hrep. destruct Hrep as (Ha & Hl & Hr).
  destruct fuel as [|fuel]; cbn [nsize] in Hf; [lia|].
  cbn [find_loop]. unfold deref at 1. rewrite Ha. cbn [bind n_val n_left n_right].
  rewrite (child_test (t_heap t) _ t l q Hl eq_refl), (child_test (t_heap t) _ t r q Hr eq_refl). cbn [bind].
  assert (Lw : forall fr c s, near [fr] = match ov with Some _ => Some a | None => None end ->
    orelse (nearest (c ++ [fr]) s) lw = orelse (nearest c s) (match ov with Some _ => Some a | None => lw end)).
  { intros fr c s Hfr. rewrite nearest_app, Hfr. destruct (nearest c s); cbn [orelse]; [reflexivity|]. destruct ov; reflexivity. }
  destruct (match okey l with None => false | Some k => key_contains k q end) eqn:El.
  - apply contains_dec in El. destruct (oaddr l) as [al|] eqn:Al; [|apply oaddr_okey in Al; rewrite Al in El; destruct El].
    destruct (IHl t (Some a) q fw fuel (match ov with Some _ => Some a | None => lw end) al eq_refl Hl El ltac:(lia)) as (c & s & -> & Hs & Hst & Eq).
    exists (c ++ [NFr false a k ov r]), s. rewrite nplug_app. cbn [nplug]. split; [reflexivity|]. split; [exact Hs|].
    split; [exact Hst|]. rewrite Eq. destruct fw; [|reflexivity]. f_equal. symmetry. apply Lw. cbn. destruct ov; reflexivity.
  - assert (Nl : ~ contains (okey l) q) by (rewrite <- contains_dec, El; discriminate).
    destruct (match okey r with None => false | Some k => key_contains k q end) eqn:Er.
    + apply contains_dec in Er. destruct (oaddr r) as [ar|] eqn:Ar; [|apply oaddr_okey in Ar; rewrite Ar in Er; destruct Er].
      destruct (IHr t (Some a) q fw fuel (match ov with Some _ => Some a | None => lw end) ar eq_refl Hr Er ltac:(lia)) as (c & s & -> & Hs & Hst & Eq).
      exists (c ++ [NFr true a k ov l]), s. rewrite nplug_app. cbn [nplug]. split; [reflexivity|]. split; [exact Hs|].
      split; [exact Hst|]. rewrite Eq. destruct fw; [|reflexivity]. f_equal. symmetry. apply Lw. cbn. destruct ov; reflexivity.
    + assert (Nr : ~ contains (okey r) q) by (rewrite <- contains_dec, Er; discriminate).
      exists [], (N a k ov l r). split; [reflexivity|]. split; [exact Hp|]. split; [split; assumption|].
      destruct fw; [|reflexivity]. f_equal. destruct ov; reflexivity.
Qed.

(** ** The invariant *)
Definition nstate (t : trie V) (tr : ntree) : Prop :=
  t_root t = oaddr tr /\ nrep (t_heap t) None tr /\ NoDup (nfp tr) /\
  (forall p, In p (nfp tr) -> (p < t_next t)%nat) /\
  Permutation (t_list t) (nfp tr) /\ nwf tr.

Definition NInv (t : trie V) (tbl : list (key * V)) : Prop :=
  exists tr, nstate t tr /\ Permutation (nvals tr) tbl.

Lemma nstate_size : forall t tr, nstate t tr -> (nsize tr <= t_next t)%nat.
Proof.
  intros t tr (_ & _ & Hnd & Hlt & _). rewrite <- nsize_fp.
  replace (t_next t) with (length (seq 0 (t_next t))) by apply seq_length.
  apply NoDup_incl_length; auto. intros p Hp. apply in_seq. specialize (Hlt p Hp). lia.
Qed.

Lemma nfind_lcp : forall t tr q fw, nstate t tr ->
  (~ contains (okey tr) q /\ find_lcp t q fw = Ok None) \/
  (exists c s, tr = nplug c s /\ contains (okey s) q /\ nstop s q /\
     find_lcp t q fw = Ok (if fw then nearest c s else oaddr s)).
Proof.
  intros t tr q fw Hst. pose proof (nstate_size t tr Hst) as Hsz.
  destruct Hst as (Hroot & Hrep & _). unfold find_lcp. rewrite Hroot.
  destruct (oaddr tr) as [a|] eqn:Ea.
  - destruct (nrep_addr _ _ _ _ Hrep Ea) as (n & k & Hn & Hk & Hkn & _). unfold deref. rewrite Hn. cbn [bind]. rewrite Hkn.
    destruct (key_contains k q) eqn:E0.
    + right. apply key_contains_spec in E0.
      destruct (nfind_loop tr t None q fw (S (t_next t)) None a Ea Hrep) as (c & s & H1 & H2 & H3 & H4);
        [rewrite Hk; exact E0|lia|].
      exists c, s. repeat split; auto. rewrite H4. destruct fw; [|reflexivity]. destruct (nearest c s); reflexivity.
    + left. apply key_contains_false in E0. rewrite Hk. auto.
  - left. apply oaddr_okey in Ea. rewrite Ea. cbn. auto.
Qed.

(** The entries on the way from the root, deepest first. *)
Fixpoint path (c : nctx) : list (key * V) :=
  match c with [] => [] | NFr _ _ k ov _ :: c' => own k ov ++ path c' end.

Lemma path_above : forall c hole k v, nwf_ctx c (Some hole) -> In (k, v) (path c) -> strict k hole.
Proof.
  induction c as [|[side a k0 ov s] c IH]; cbn [path nwf_ctx below]; intros hole k v Hw Hin; [destruct Hin|].
  destruct Hw as (B & _ & _ & _ & _ & Wc). apply in_app_or in Hin. destruct Hin as [Hin|Hin].
  - destruct ov; cbn in Hin; [destruct Hin as [[= <- <-]|[]]|destruct Hin]. exact B.
  - eapply strict_ext; [eapply IH; eauto|apply B].
Qed.

Lemma ctx_matches : forall c hole q k v, nwf_ctx c (Some hole) -> prefix_of hole q ->
  In (k, v) (nvals_ctx c) -> prefix_of k q -> In (k, v) (path c).
Proof.
  induction c as [|[side a k0 ov s] c IH]; cbn [path nwf_ctx nvals_ctx below]; intros hole q k v Hw Hq Hin Hk; [destruct Hin|].
  destruct Hw as (B & _ & A & _ & Ws & Wc). apply in_or_app. apply in_app_or in Hin. destruct Hin as [Hin|Hin]; [auto|].
  right. apply in_app_or in Hin. destruct Hin as [Hin|Hin].
  - exfalso. apply nvals_ext in Hin; [|exact Ws]. destruct (okey s); cbn in *; [|exact Hin].
    apply A. eapply prefix_overlap; [exact Hq|eapply prefix_trans; eauto].
  - eapply IH; eauto. eapply prefix_trans; [apply B|exact Hq].
Qed.

(** Every stored key that contains [q] is at the stop or on the way to it. *)
Lemma stop_matches : forall c a k0 ov l r q k v, nwf (nplug c (N a k0 ov l r)) -> prefix_of k0 q ->
  nstop (N a k0 ov l r) q -> In (k, v) (nvals (nplug c (N a k0 ov l r))) -> prefix_of k q ->
  In (k, v) (own k0 ov ++ path c).
Proof.
  intros c a k0 ov l r q k v Hw Hq (Sl & Sr) Hin Hk. apply nwf_plug in Hw. cbn [okey nwf] in Hw.
  destruct Hw as (Wc & Bl & Br & _ & _ & Wl & Wr).
  apply (Permutation_in _ (nvals_plug c _)) in Hin. apply in_or_app. apply in_app_or in Hin. destruct Hin as [Hin|Hin].
  - cbn [nvals] in Hin. apply in_app_or in Hin. destruct Hin as [Hin|Hin]; [auto|]. exfalso.
    apply in_app_or in Hin. destruct Hin as [Hin|Hin].
    + apply nvals_ext in Hin; [|exact Wl]. apply Sl. destruct (okey l); cbn in *; [|exact Hin]. eapply prefix_trans; eauto.
    + apply nvals_ext in Hin; [|exact Wr]. apply Sr. destruct (okey r); cbn in *; [|exact Hin]. eapply prefix_trans; eauto.
  - right. eapply ctx_matches; eauto.
Qed.

Lemma path_in : forall c t k v, In (k, v) (path c) -> In (k, v) (nvals (nplug c t)).
Proof.
  intros c t k v H. eapply Permutation_in; [symmetry; apply nvals_plug|]. apply in_or_app. right.
  induction c as [|[side a k0 ov s] c IH]; cbn in *; [exact H|]. apply in_app_or in H. apply in_or_app.
  destruct H as [H|H]; [auto|]. right. apply in_or_app. right. apply IH, H.
Qed.

(** The nearest white node is the first of [path]. *)
Lemma near_path : forall c h root hole, nrep_ctx h root c hole ->
  match near c with
  | None => path c = []
  | Some p => exists n v rest, h p = Some n /\ n_val n = Some v /\ path c = (n_key n, v) :: rest
  end.
Proof.
  induction c as [|[side a k ov s] c IH]; cbn [near path nrep_ctx]; intros h root hole H; [reflexivity|].
  destruct H as (Ha & _ & Hc). destruct ov as [v|]; cbn [own app]; [|apply IH in Hc; exact Hc].
  eexists. exists v, (path c). split; [exact Ha|]. split; reflexivity.
Qed.

Lemma path_sorted : forall c hole k1 v1 rest k v, nwf_ctx c (Some hole) -> path c = (k1, v1) :: rest ->
  In (k, v) rest -> (length k <= length k1)%nat.
Proof.
  induction c as [|[side a k0 ov s] c IH]; cbn [path nwf_ctx]; intros hole k1 v1 rest k v Hw Hp Hin; [discriminate|].
  destruct Hw as (_ & _ & _ & _ & _ & Wc). destruct ov as [v0|]; cbn [own app] in Hp.
  - injection Hp as <- <- <-. pose proof (strict_len _ _ (path_above c k0 k v Wc Hin)). lia.
  - eapply IH; eauto.
Qed.

(** Lookups answer with the longest match. *)
Lemma nfind_ok : forall t tbl q, NInv t tbl ->
  exists r, rtrie_find t q = Ok r /\ longest_match tbl q r /\
    exists b, rtrie_contains t q = Ok b /\ (b = true <-> r <> None).
Proof.
  intros t tbl q (tr & Hst & Hperm). pose proof Hst as (Hroot & Hrep & _ & _ & _ & Hw).
  unfold rtrie_find, rtrie_contains.
  destruct (nfind_lcp t tr q true Hst) as [(Hn & ->)|(c & s & -> & Hp & Hstop & ->)]; cbn [bind].
  - exists None. split; [reflexivity|]. split; [|exists false; split; [reflexivity|split; congruence]].
    intros k v Hin Hk. apply Hn. apply (Permutation_in _ (Permutation_sym Hperm)) in Hin.
    apply nvals_ext in Hin; [|exact Hw]. destruct (okey tr); cbn in *; [|exact Hin]. eapply prefix_trans; eauto.
  - destruct s as [|a k0 ov l r]; [destruct Hp|]. cbn [okey contains] in Hp.
    destruct (proj1 (nrep_plug c (t_heap t) (t_root t) _) (conj Hrep Hroot)) as (Hc & Hs).
    pose proof Hw as Hw'. apply nwf_plug in Hw'. cbn [okey] in Hw'. destruct Hw' as (Wc & _).
    assert (All : forall k v, In (k, v) tbl -> prefix_of k q -> In (k, v) (own k0 ov ++ path c)).
    { intros k v Hin Hk. eapply stop_matches; eauto. eapply Permutation_in; [symmetry; exact Hperm|exact Hin]. }
    cbn [nearest]. destruct ov as [v0|].
    + cbn [nrep] in Hs. destruct Hs as (Ha & _). unfold deref. rewrite Ha. cbn [bind n_val].
      exists (Some v0). split; [reflexivity|]. split; [|exists true; split; [reflexivity|split; congruence]].
      exists k0. split; [|split; [exact Hp|]].
      * eapply Permutation_in; [exact Hperm|]. eapply Permutation_in; [symmetry; apply nvals_plug|]. left. reflexivity.
      * intros k' v' Hin Hk'. specialize (All _ _ Hin Hk'). cbn in All. destruct All as [[= <- <-]|All]; [lia|].
        pose proof (strict_len _ _ (path_above c k0 k' v' Wc All)). lia.
    + pose proof (near_path c _ _ _ Hc) as Hnear. destruct (near c) as [p|].
      * destruct Hnear as (n & v & rest & Hh & Hv & Hpath). unfold deref. rewrite Hh. cbn [bind]. rewrite Hv.
        assert (In1 : In (n_key n, v) (path c)) by (rewrite Hpath; left; reflexivity).
        exists (Some v). split; [reflexivity|]. split; [|exists true; split; [reflexivity|split; congruence]].
        exists (n_key n). split; [|split].
        -- eapply Permutation_in; [exact Hperm|]. apply path_in. exact In1.
        -- eapply prefix_trans; [apply (path_above c k0 _ v Wc In1)|exact Hp].
        -- intros k' v' Hin Hk'. specialize (All _ _ Hin Hk'). cbn in All. rewrite Hpath in All.
           destruct All as [[= <- <-]|All]; [lia|]. eapply path_sorted; eauto.
      * exists None. split; [reflexivity|]. split; [|exists false; split; [reflexivity|split; congruence]].
        intros k v Hin Hk. specialize (All _ _ Hin Hk). rewrite Hnear in All. destruct All.
Qed.

(** ** Frame reasoning *)
Lemma nrep_ext : forall h h' tr par, (forall p, In p (nfp tr) -> h' p = h p) -> nrep h par tr -> nrep h' par tr.
Proof.
  induction tr as [|a k ov l IHl r IHr]; intros par Hext; cbn [nrep nfp] in *; [auto|].
  intros (H1 & H2 & H3). split; [rewrite Hext by (left; reflexivity); exact H1|].
  split; [apply IHl|apply IHr]; auto; intros p Hp; apply Hext; right; apply in_or_app; auto.
Qed.

Lemma nrep_ctx_ext : forall c h h' root hole, (forall p, In p (nfp_ctx c) -> h' p = h p) ->
  nrep_ctx h root c hole -> nrep_ctx h' root c hole.
Proof.
  induction c as [|[side a k ov s] c IH]; intros h h' root hole Hext; cbn [nrep_ctx nfp_ctx] in *; [auto|].
  intros (H1 & H2 & H3). split; [rewrite Hext by (left; reflexivity); exact H1|].
  split; [eapply nrep_ext; [|exact H2]|eapply IH; [|exact H3]]; intros p Hp; apply Hext; right; apply in_or_app; auto.
Qed.

Lemma nrep_reparent : forall h h' tr par par', NoDup (nfp tr) ->
  (forall p, In p (nfp tr) -> Some p <> oaddr tr -> h' p = h p) ->
  (forall a n, oaddr tr = Some a -> h a = Some n -> h' a = Some (reparent par' n)) ->
  nrep h par tr -> nrep h' par' tr.
Proof.
  intros h h' [|a k ov l r] par par' Hnd Hext Ha; cbn [nrep oaddr nfp] in *; [auto|].
  intros (H1 & H2 & H3). split; [rewrite (Ha _ _ eq_refl H1); reflexivity|].
  apply NoDup_cons_iff in Hnd. destruct Hnd as [Hni Hnd].
  split; (eapply nrep_ext; [|eassumption]); intros p Hp; apply Hext;
    try (right; apply in_or_app; auto); intros [= ->]; apply Hni; apply in_or_app; auto.
Qed.

Lemma oaddr_in_fp : forall tr a, oaddr tr = Some a -> In a (nfp tr).
Proof. destruct tr; cbn; intros b [= <-]. auto. Qed.

Lemma nstate_frame : forall (t t' : trie V) tr,
  nstate t tr -> t_root t' = t_root t -> t_list t' = t_list t -> (t_next t <= t_next t')%nat ->
  (forall p, (p < t_next t)%nat -> t_heap t' p = t_heap t p) -> nstate t' tr.
Proof.
  intros t t' tr (H1 & H2 & H3 & H4 & H5 & H6) Hr Hl Hn Hh.
  unfold nstate. rewrite Hr, Hl. repeat split; auto.
  - eapply nrep_ext; [|exact H2]. intros p Hp. apply Hh. auto.
  - intros p Hp. specialize (H4 p Hp). lia.
Qed.

Lemma nat_state : forall (t : trie V) c s, nstate t (nplug c s) ->
  nrep_ctx (t_heap t) (t_root t) c (oaddr s) /\ nrep (t_heap t) (ncpar c) s /\
  NoDup (nfp s) /\ NoDup (nfp_ctx c) /\ (forall p, In p (nfp s) -> In p (nfp_ctx c) -> False) /\
  (forall p, In p (nfp s) -> (p < t_next t)%nat) /\ (forall p, In p (nfp_ctx c) -> (p < t_next t)%nat) /\
  nwf_ctx c (okey s) /\ nwf s.
Proof.
  intros t c s (H1 & H2 & H3 & H4 & H5 & H6).
  destruct (proj1 (nrep_plug c (t_heap t) (t_root t) s) (conj H2 H1)) as [Hc Hs].
  pose proof (Permutation_NoDup (nfp_plug c s) H3) as Hnd. apply nodup_app in Hnd. destruct Hnd as (N1 & N2 & N3).
  apply nwf_plug in H6. destruct H6.
  repeat split; auto; intros p Hp; apply H4; eapply Permutation_in; try (symmetry; apply nfp_plug); apply in_or_app; auto.
Qed.

(** Replacing the subtree at the hole by one with the same root. *)
Lemma nstate_replace : forall (t t' : trie V) c s s' extra,
  nstate t (nplug c s) ->
  t_root t' = t_root t ->
  oaddr s' = oaddr s -> okey s' = okey s -> nwf s' ->
  nrep (t_heap t') (ncpar c) s' ->
  (forall p, In p (nfp_ctx c) -> t_heap t' p = t_heap t p) ->
  Permutation (extra ++ nfp s) (nfp s') -> NoDup extra ->
  (forall p, In p extra -> ~ In p (nfp (nplug c s)) /\ (p < t_next t')%nat) -> (t_next t <= t_next t')%nat ->
  Permutation (t_list t') (extra ++ t_list t) ->
  nstate t' (nplug c s').
Proof.
  intros t t' c s s' extra Hst Hroot Ha Hk Hw Hrep Hext Hfp Hnd Hex Hnext Hlist.
  pose proof Hst as (HR & Hrep0 & Hnd0 & Hlt & Hl & Hwf).
  destruct (nat_state t c s Hst) as (A1 & A2 & A3 & A4 & A5 & A6 & A7 & A8 & A9).
  assert (Hperm : Permutation (extra ++ nfp (nplug c s)) (nfp (nplug c s'))).
  { rewrite !nfp_plug. rewrite <- Hfp. rewrite <- app_assoc. reflexivity. }
  assert (Hboth : nrep (t_heap t') None (nplug c s') /\ t_root t' = oaddr (nplug c s')).
  { apply nrep_plug. split; auto. rewrite Ha, Hroot. eapply nrep_ctx_ext; eauto. }
  destruct Hboth as [B1 B2].
  unfold nstate. repeat split; auto.
  - eapply Permutation_NoDup; [exact Hperm|].
    assert (Hdisj : forall x, In x extra -> In x (nfp (nplug c s)) -> False).
    { intros x Hx1 Hx2. specialize (Hex x Hx1). tauto. }
    clear - Hnd Hnd0 Hdisj. induction extra as [|x l IH]; cbn; auto.
    apply NoDup_cons_iff in Hnd. destruct Hnd as [N1 N2]. constructor.
    + intros Hi. apply in_app_or in Hi. destruct Hi; [tauto|]. eapply Hdisj; [left; reflexivity|auto].
    + apply IH; auto. intros y Hy. apply Hdisj. right. auto.
  - intros p Hp. apply (Permutation_in _ (Permutation_sym Hperm)) in Hp. apply in_app_or in Hp.
    destruct Hp as [Hp|Hp]; [apply Hex in Hp; lia|]. specialize (Hlt p Hp). lia.
  - rewrite Hlist. rewrite <- Hperm. apply Permutation_app_head. exact Hl.
  - apply nwf_plug. rewrite Hk. auto.
Qed.
End Nest.
Arguments ntree V : clear implicits.
Arguments nctx V : clear implicits.
