(** Proofs about instances: reference counts. *)
Require Import Verif.Base Verif.Addr_Model Verif.Glob_Model Verif.Glob_Spec Verif.Glob_Proofs Verif.Inst_Model Verif.Inst_Spec Verif.Paging.
Require Import Permutation.
Local Ltac Zify.zify_post_hook ::= Z.div_mod_to_equations.

(** ** Counting *)

Definition cnt (L : list Z) (o : Z) : Z := Z.of_nat (count_occ Z.eq_dec L o).
Lemma cnt_nil : forall o, cnt [] o = 0. Proof. reflexivity. Qed.
Lemma cnt_cons : forall a L o, cnt (a :: L) o = (if a =? o then 1 else 0) + cnt L o.
Proof. intros. unfold cnt. cbn [count_occ]. destruct (Z.eq_dec a o), (Z.eqb_spec a o); lia. Qed.
Lemma cnt_app : forall L M o, cnt (L ++ M) o = cnt L o + cnt M o.
Proof. intros. unfold cnt. rewrite count_occ_app. lia. Qed.
Lemma cnt_nonneg : forall L o, 0 <= cnt L o. Proof. intros. unfold cnt. lia. Qed.
Lemma cnt_in : forall L o, In o L <-> 1 <= cnt L o.
Proof. intros. unfold cnt. rewrite (count_occ_In Z.eq_dec). lia. Qed.
Lemma cnt_notin : forall L o, ~ In o L <-> cnt L o = 0.
Proof. intros. rewrite cnt_in. pose proof (cnt_nonneg L o). lia. Qed.
Lemma cnt_perm : forall L M, Permutation L M -> forall o, cnt L o = cnt M o.
Proof. intros L M P o. unfold cnt. rewrite (Permutation_count_occ Z.eq_dec) in P. rewrite P. reflexivity. Qed.

Section Inst.
Context {D E : Type} (W : databases D E).
Notation st := (state D).

(** ** Reference counts *)

Definition objs_ok (f : Z -> option (D * Z)) (L : list Z) : Prop :=
  forall o, match f o with Some (_, n) => n = cnt L o /\ 1 <= n | None => cnt L o = 0 end.
Definition keep (L : list Z) (f g : Z -> option (D * Z)) : Prop := forall o, In o L -> option_map fst (g o) = option_map fst (f o).
Definition set_objs (s : st) (f : Z -> option (D * Z)) : st := St (table s) (nf_list s) (cands s) f (hooks s) (held s) (next s) (bad_ref s) (bad_cand s).

Lemma keep_refl : forall L f, keep L f f. Proof. intros L f o _. reflexivity. Qed.
Lemma keep_trans : forall L f g h, keep L f g -> keep L g h -> keep L f h.
Proof. intros L f g h H1 H2 o H. rewrite (H2 o H). apply H1. exact H. Qed.
Lemma keep_incl : forall L M f g, incl M L -> keep L f g -> keep M f g.
Proof. intros L M f g I H o Ho. apply H. apply I. exact Ho. Qed.
Lemma objs_ok_cnt : forall f L M, (forall o, cnt L o = cnt M o) -> objs_ok f L -> objs_ok f M.
Proof. intros f L M H K o. specialize (K o). rewrite <- H. exact K. Qed.
Lemma objs_ok_perm : forall f L M, Permutation L M -> objs_ok f L -> objs_ok f M.
Proof. intros f L M P. apply objs_ok_cnt. apply cnt_perm. exact P. Qed.
Lemma objs_ok_alive : forall f L o, objs_ok f L -> (f o <> None <-> In o L).
Proof. intros f L o H. specialize (H o). rewrite cnt_in. destruct (f o) as [[d n]|]; split; intros; try congruence; lia. Qed.

Lemma orb_false : forall b, b || false = b. Proof. intros []; reflexivity. Qed.
Lemma with_objs_false : forall (s : st) f, with_objs s f false = set_objs s f.
Proof. intros s f. unfold with_objs, set_objs. rewrite orb_false. reflexivity. Qed.

Lemma set_set : forall (s : st) f g, set_objs (set_objs s f) g = set_objs s g. Proof. reflexivity. Qed.

Lemma get_one : forall o L (s : st), objs_ok (objs s) L -> In o L ->
  exists f, kref_get o s = set_objs s f /\ objs_ok f (o :: L) /\ keep L (objs s) f.
Proof.
  intros o L s H I. pose proof (H o) as Ho. unfold kref_get. destruct (objs s o) as [[d n]|] eqn:Eo.
  2:{ apply cnt_in in I. lia. }
  exists (upd (objs s) o (Some (d, n + 1))). split; [apply with_objs_false|]. split.
  - intros k. unfold upd. rewrite cnt_cons. destruct (Z.eqb_spec k o) as [->|Hk].
    + rewrite Z.eqb_refl. lia.
    + specialize (H k). destruct (Z.eqb_spec o k); [congruence|]. destruct (objs s k) as [[? ?]|]; lia.
  - intros k _. unfold upd. destruct (Z.eqb_spec k o) as [->|]; [rewrite Eo|]; reflexivity.
Qed.

Lemma put_one : forall o L (s : st), objs_ok (objs s) (o :: L) ->
  exists f, kref_put o s = set_objs s f /\ objs_ok f L /\ keep L (objs s) f.
Proof.
  intros o L s H. pose proof (H o) as Ho. rewrite cnt_cons, Z.eqb_refl in Ho. unfold kref_put. pose proof (cnt_nonneg L o). destruct (objs s o) as [[d n]|] eqn:Eo.
  2:{ lia. }
  eexists. split; [apply with_objs_false|]. split.
  - intros k. unfold upd. destruct (Z.eqb_spec k o) as [->|Hk].
    + destruct (Z.eqb_spec n 1); lia.
    + specialize (H k). rewrite cnt_cons in H. destruct (Z.eqb_spec o k); [congruence|]. destruct (objs s k) as [[? ?]|]; lia.
  - intros k I. apply cnt_in in I. unfold upd. destruct (Z.eqb_spec k o) as [->|]; [|reflexivity].
    rewrite Eo. destruct (Z.eqb_spec n 1); [lia|reflexivity].
Qed.

Definition full (x : xlator) : Prop := match x_dbs x with Siit _ _ => True | Nat64 _ b j => b <> None /\ j <> None end.
Lemma get_spec : forall x L (s : st), full x -> objs_ok (objs s) L -> incl (databases_of x) L ->
  exists f, xlator_get x s = set_objs s f /\ objs_ok f (databases_of x ++ L) /\ keep L (objs s) f.
Proof.
  intros x L s F H I. unfold xlator_get. unfold databases_of in *. unfold full in F.
  destruct (get_one (x_stats x) L s H) as (f1 & -> & H1 & K1); [apply I; left; reflexivity|].
  destruct (x_dbs x) as [e d|p [b|] [j|]]; try (destruct F; congruence); cbn [app In] in I |- *.
  - destruct (get_one e (x_stats x :: L) (set_objs s f1) H1) as (f2 & -> & H2 & K2); [right; apply I; cbn; tauto|]; rewrite ?set_set.
    destruct (get_one d (e :: x_stats x :: L) (set_objs s f2) H2) as (f3 & -> & H3 & K3); [right; right; apply I; cbn; tauto|]; rewrite ?set_set.
    exists f3. split; [reflexivity|]. split.
    + eapply objs_ok_cnt; [|exact H3]. intros o. rewrite !cnt_cons. lia.
    + eapply keep_trans; [exact K1|]. eapply keep_trans; [|eapply keep_incl; [|exact K3]]; [eapply keep_incl; [|exact K2]|]; intros o Ho; cbn; auto.
  - destruct (get_one p (x_stats x :: L) (set_objs s f1) H1) as (f2 & -> & H2 & K2); [right; apply I; cbn; tauto|]; rewrite ?set_set.
    cbn [kref_get_ptr].
    destruct (get_one b (p :: x_stats x :: L) (set_objs s f2) H2) as (f3 & -> & H3 & K3); [right; right; apply I; cbn; tauto|]; rewrite ?set_set.
    destruct (get_one j (b :: p :: x_stats x :: L) (set_objs s f3) H3) as (f4 & -> & H4 & K4); [right; right; right; apply I; cbn; tauto|]; rewrite ?set_set.
    exists f4. split; [reflexivity|]. split.
    + eapply objs_ok_cnt; [|exact H4]. intros o. rewrite !cnt_cons. lia.
    + eapply keep_trans; [exact K1|]. eapply keep_trans; [eapply keep_incl; [|exact K2]|]; [intros o Ho; cbn; auto|].
      eapply keep_trans; [eapply keep_incl; [|exact K3]|eapply keep_incl; [|exact K4]]; intros o Ho; cbn; auto.
Qed.

Lemma put_spec : forall x L (s : st), objs_ok (objs s) (databases_of x ++ L) ->
  exists f, xlator_put x s = set_objs s f /\ objs_ok f L /\ keep L (objs s) f.
Proof.
  intros x L s H. unfold xlator_put. unfold databases_of in H. cbn [app] in H.
  destruct (put_one _ _ s H) as (f1 & -> & H1 & K1).
  assert (Kp : forall A, keep (A ++ L) (objs s) f1 -> keep L (objs s) f1) by (intros A; apply keep_incl; intros o Ho; apply in_or_app; auto).
  apply Kp in K1. clear Kp.
  destruct (x_dbs x) as [e d|p b j]; cbn [app] in H1.
  - destruct (put_one _ _ (set_objs s f1) H1) as (f2 & -> & H2 & K2); rewrite ?set_set. destruct (put_one _ _ (set_objs s f2) H2) as (f3 & -> & H3 & K3); rewrite ?set_set.
    exists f3. split; [reflexivity|]. split; [exact H3|]. eapply keep_trans; [exact K1|]. eapply keep_trans; [|exact K3]. eapply keep_incl; [|exact K2]. intros o Ho. cbn. auto.
  - destruct (put_one _ _ (set_objs s f1) H1) as (f2 & -> & H2 & K2); rewrite ?set_set.
    assert (Hb : exists f3, (match b with Some b => kref_put b (set_objs s f2) | None => set_objs s f2 end) = set_objs s f3 /\
      objs_ok f3 ((match j with Some j => [j] | None => [] end) ++ L) /\ keep L f2 f3).
    { rewrite <- app_assoc in H2. destruct b as [b|]; [|exists f2; split; [reflexivity|split; [exact H2|apply keep_refl]]].
      destruct (put_one _ _ (set_objs s f2) H2) as (f3 & E3 & H3 & K3). exists f3. split; [exact E3|]. split; [exact H3|]. eapply keep_incl; [|exact K3]. intros o Ho. apply in_or_app. auto. }
    destruct Hb as (f3 & -> & H3 & K3).
    assert (K2' : keep L f1 f2) by (eapply keep_incl; [|exact K2]; intros o Ho; apply in_or_app; auto).
    destruct j as [j|].
    + destruct (put_one _ _ (set_objs s f3) H3) as (f4 & -> & H4 & K4); rewrite ?set_set. exists f4. split; [reflexivity|]. split; [exact H4|].
      eapply keep_trans; [exact K1|]. eapply keep_trans; [exact K2'|]. eapply keep_trans; [exact K3|exact K4].
    + exists f3. split; [reflexivity|]. split; [exact H3|]. eapply keep_trans; [exact K1|]. eapply keep_trans; [exact K2'|exact K3].
Qed.

Lemma alloc_spec : forall k L (s : st), objs_ok (objs s) L -> (forall o, In o L -> o < next s) ->
  exists f, alloc_obj W k s = (next s, with_next (set_objs s f) (next s + 1)) /\ objs_ok f (next s :: L) /\ keep L (objs s) f /\ f (next s) = Some (db_new W k, 1).
Proof.
  intros k L s H F. unfold alloc_obj. exists (upd (objs s) (next s) (Some (db_new W k, 1))). rewrite with_objs_false. split; [reflexivity|].
  assert (Z0 : cnt L (next s) = 0) by (apply cnt_notin; intros I; apply F in I; lia).
  split; [|split].
  - intros o. unfold upd. rewrite cnt_cons. destruct (Z.eqb_spec o (next s)) as [->|]; [rewrite Z.eqb_refl; lia|]. specialize (H o). destruct (Z.eqb_spec (next s) o); [congruence|]. destruct (objs s o) as [[? ?]|]; lia.
  - intros o Ho. unfold upd. destruct (Z.eqb_spec o (next s)) as [->|]; [apply F in Ho; lia|reflexivity].
  - unfold upd. rewrite Z.eqb_refl. reflexivity.
Qed.

(** ** Flags *)

Lemma flags2xt_mod : forall f, flags2xt f = f mod 4.
Proof. intros f. unfold flags2xt. change 3 with (Z.ones 2). rewrite Z.land_ones by lia. reflexivity. Qed.
Lemma flags2xf_mod : forall f, flags2xf f = 4 * ((f / 4) mod 4).
Proof.
  intros f. unfold flags2xf. apply Z.bits_inj'. intros n Hn. rewrite Z.land_spec. replace (f / 4) with (Z.shiftr f 2) by (rewrite Z.shiftr_div_pow2 by lia; reflexivity).
  replace (4 * (Z.shiftr f 2 mod 4)) with (Z.shiftl (Z.land (Z.shiftr f 2) (Z.ones 2)) 2) by (rewrite Z.shiftl_mul_pow2, Z.land_ones by lia; lia).
  rewrite Z.shiftl_spec by lia. destruct (Z.ltb_spec n 2).
  - rewrite (Z.testbit_neg_r _ (n - 2)) by lia. assert (n = 0 \/ n = 1) as [-> | ->] by lia; apply andb_false_r.
  - rewrite Z.land_spec, Z.shiftr_spec by lia. f_equal; [f_equal; lia|]. destruct (Z.eqb_spec n 2) as [->|]; [reflexivity|]. destruct (Z.eqb_spec n 3) as [->|]; [reflexivity|].
    rewrite Z.testbit_ones_nonneg by lia. transitivity false; [|symmetry; apply Z.ltb_ge; lia]. apply Z.bits_above_log2; [lia|]. cbn. lia.
Qed.
Lemma bit_and_3 : forall f a, Z.land a 3 = a -> bit_and f a = bit_and (f mod 4) a.
Proof. intros f a H. unfold bit_and. rewrite <- H at 1. rewrite (Z.land_comm a 3), Z.land_assoc. fold (flags2xt f). rewrite flags2xt_mod. reflexivity. Qed.
Lemma bit_and_12 : forall f a, Z.land a 12 = a -> bit_and f a = bit_and (4 * ((f / 4) mod 4)) a.
Proof. intros f a H. unfold bit_and. rewrite <- H at 1. rewrite (Z.land_comm a 12), Z.land_assoc. fold (flags2xf f). rewrite flags2xf_mod. reflexivity. Qed.
Lemma bit_and_comm : forall a b, bit_and a b = bit_and b a.
Proof. intros. unfold bit_and. rewrite Z.land_comm. reflexivity. Qed.

Lemma type_cases : forall x, well_formed x -> type_of x = 1 \/ type_of x = 2.
Proof. intros x [_ H]. destruct (x_dbs x); tauto. Qed.
Lemma is_nat64_spec : forall x, well_formed x -> is_nat64 x = (type_of x =? 2).
Proof.
  intros x H. unfold is_nat64, XT_NAT64. rewrite bit_and_3 by reflexivity. fold (type_of x). destruct (type_cases x H) as [->| ->]; reflexivity.
Qed.
Lemma is_netfilter_spec : forall x, well_formed x -> is_netfilter x = (framework_of x =? 1).
Proof.
  intros x [H _]. unfold is_netfilter, XF_NETFILTER. rewrite bit_and_12 by reflexivity. fold (framework_of x). destruct H as [->| ->]; reflexivity.
Qed.
Lemma full_wf : forall x, well_formed x -> full x.
Proof. intros x [_ H]. unfold full. destruct (x_dbs x); tauto. Qed.
Lemma xt_validate_spec : forall xt, xt_validate xt = OK <-> xt = 1 \/ xt = 2.
Proof. intros. unfold xt_validate, XT_SIIT, XT_NAT64. destruct (Z.eqb_spec xt 1), (Z.eqb_spec xt 2); cbn; split; intros; try congruence; lia. Qed.
Lemma xf_validate_spec : forall f, xf_validate (flags2xf f) = OK <-> (f / 4) mod 4 = 1 \/ (f / 4) mod 4 = 2.
Proof. intros. rewrite flags2xf_mod. unfold xf_validate, XF_NETFILTER, XF_IPTABLES. destruct (Z.eqb_spec (4 * (f / 4 mod 4)) 4), (Z.eqb_spec (4 * (f / 4 mod 4)) 8); cbn [orb]; split; intros; try congruence; try lia; reflexivity. Qed.
Lemma name_eqb_spec : forall a b, name_eqb a b = true <-> a = b.
Proof. intros. unfold name_eqb. destruct (list_eq_dec Z.eq_dec a b); split; congruence. Qed.

(** ** The invariant *)

Definition nfi (i : instance) : bool := is_netfilter (i_x i).
Definition hook (i : instance) : Z * Z := (x_ns (i_x i), match i_ops i with Some o => o | None => -1 end).
Definition refs (X : list xlator) (s : st) : list Z := flat_map databases_of (X ++ users s).

(** The tables *)
Record tb (s : st) : Prop := Tb {
  b_len : length (table s) = 64%nat;
  b_bucket : forall h i, In i (nth h (table s) []) -> i_hash i = Some h /\ h = bucket W (x_ns (i_x i)) (type_of (i_x i)) (x_name (i_x i));
  b_wf : forall i, In i (concat (table s)) -> well_formed (i_x i);
  b_ids : NoDup (map i_id (concat (table s)));
  b_keys : NoDup (map key (instances s));
  b_nf : Permutation (nf_list s) (filter nfi (concat (table s)));
  b_next : forall i, In i (concat (table s)) -> i_id i < next s;
}.
(** The hooks, with instances [dl] that are not in the table anymore *)
Record hk (dl : list instance) (s : st) : Prop := Hk {
  h_perm : Permutation (hooks s) (map hook (filter nfi (dl ++ concat (table s))));
  h_nodup : NoDup (map snd (hooks s));
  h_ops : forall i, In i (dl ++ concat (table s)) -> nfi i = true -> i_ops i <> None;
  h_next : forall h, In h (hooks s) -> snd h < next s;
}.
(** The references, with local ones of [X] *)
Record rf (X : list xlator) (s : st) : Prop := Rf {
  r_objs : objs_ok (objs s) (refs X s);
  r_next : forall o, In o (refs X s) -> o < next s;
  r_ref : bad_ref s = false;
}.
(** The candidates and clones *)
Record cd (s : st) : Prop := Cd {
  c_wf : forall c, In c (cands s) -> well_formed (c_x c);
  c_ids : NoDup (map c_id (cands s));
  c_next : forall c, In c (cands s) -> c_id c < next s;
  c_held : forall x, In x (held s) -> well_formed x;
}.
Record inv (dl : list instance) (X : list xlator) (s : st) : Prop := Inv { v_tb : tb s; v_hk : hk dl s; v_rf : rf X s; v_cd : cd s }.
(** Candidates share nothing. *)
Definition excl (X : list xlator) (s : st) : Prop := forall c o, In c (cands s) -> In o (databases_of (c_x c)) -> cnt (refs X s) o = 1.

Lemma inv_objs : forall dl X X' (s : st) f n, inv dl X s -> next s <= n -> objs_ok f (refs X' s) -> (forall o, In o (refs X' s) -> o < n) ->
  inv dl X' (with_next (set_objs s f) n).
Proof.
  intros dl X X' s f n [T H R C] Hn Ho Hf. split.
  - destruct T. split; cbn; auto. intros i Hi. specialize (b_next0 i Hi). lia.
  - destruct H. split; cbn; auto. intros h Hh. specialize (h_next0 h Hh). lia.
  - destruct R. split; cbn; auto.
  - destruct C. split; cbn; auto. intros c Hc. specialize (c_next0 c Hc). lia.
Qed.
Lemma set_next_same : forall (s : st) f, with_next (set_objs s f) (next s) = set_objs s f. Proof. reflexivity. Qed.

Lemma refs_cons : forall x X (s : st), refs (x :: X) s = databases_of x ++ refs X s.
Proof. reflexivity. Qed.
Lemma refs_app : forall X (s : st), refs X s = flat_map databases_of X ++ refs [] s.
Proof. intros. unfold refs. apply flat_map_app. Qed.

(** Getting and putting *)
Lemma get_inv : forall dl X x (s : st), inv dl X s -> full x -> incl (databases_of x) (refs X s) ->
  exists f, xlator_get x s = set_objs s f /\ inv dl (x :: X) (set_objs s f) /\ keep (refs X s) (objs s) f.
Proof.
  intros dl X x s I F L. destruct (get_spec x _ s F (r_objs _ _ (v_rf _ _ _ I)) L) as (f & E1 & H & K). exists f. split; [exact E1|]. split; [|exact K].
  rewrite <- set_next_same. eapply inv_objs; [exact I|lia|exact H|]. intros o Ho. rewrite refs_cons in Ho. apply (r_next _ _ (v_rf _ _ _ I)). apply in_app_or in Ho as [Ho|Ho]; auto.
Qed.
Lemma put_inv : forall dl X x (s : st), inv dl (x :: X) s ->
  exists f, xlator_put x s = set_objs s f /\ inv dl X (set_objs s f) /\ keep (refs X s) (objs s) f.
Proof.
  intros dl X x s I. destruct (put_spec x (refs X s) s (r_objs _ _ (v_rf _ _ _ I))) as (f & E1 & H & K). exists f. split; [exact E1|]. split; [|exact K].
  rewrite <- set_next_same. eapply inv_objs; [exact I|lia|exact H|]. intros o Ho. apply (r_next _ _ (v_rf _ _ _ I)). rewrite refs_cons. apply in_or_app. auto.
Qed.
Lemma inv_X : forall dl X Y (s : st), (forall o, cnt (flat_map databases_of X) o = cnt (flat_map databases_of Y) o) -> inv dl X s -> inv dl Y s.
Proof.
  intros dl X Y s P [T H R C]. assert (Q : forall o, cnt (refs X s) o = cnt (refs Y s) o) by (intros o; rewrite (refs_app X), (refs_app Y), !cnt_app, P; reflexivity).
  split; auto. destruct R. split; auto; [eapply objs_ok_cnt; eauto|]. intros o Ho. apply r_next0. rewrite cnt_in in *. rewrite Q. exact Ho.
Qed.

(** ** The tables' operations *)

Lemma add_bucket_len : forall t h i, length (add_bucket t h i) = length t.
Proof. induction t as [|b t IH]; intros [|h] i; cbn; auto. Qed.
Lemma add_bucket_nth : forall t h i k, (h < length t)%nat -> nth k (add_bucket t h i) [] = if (k =? h)%nat then i :: nth k t [] else nth k t [].
Proof. induction t as [|b t IH]; intros [|h] i [|k] H; cbn [length] in *; try lia; cbn; try reflexivity. apply IH. lia. Qed.
Lemma add_bucket_perm : forall t h i, (h < length t)%nat -> Permutation (concat (add_bucket t h i)) (i :: concat t).
Proof.
  induction t as [|b t IH]; intros [|h] i H; cbn [length] in *; try lia; cbn [add_bucket concat app]; [reflexivity|].
  rewrite (IH h i) by lia. symmetry. apply Permutation_middle.
Qed.
Lemma concat_filter : forall (g : instance -> bool) t, concat (map (filter g) t) = filter g (concat t).
Proof. intros. apply concat_filter_map. Qed.
Lemma nth_filter : forall (g : instance -> bool) t h, nth h (map (filter g) t) [] = filter g (nth h t []).
Proof. intros. apply (map_nth (filter g) t [] h). Qed.
Lemma perm_filter : forall {A} (g : A -> bool) l m, Permutation l m -> Permutation (filter g l) (filter g m).
Proof.
  intros A g l m P. induction P; cbn; auto.
  - destruct (g x); auto.
  - destruct (g x), (g y); auto. apply perm_swap.
  - eapply perm_trans; eauto.
Qed.
Lemma filter_comm : forall {A} (f g : A -> bool) l, filter f (filter g l) = filter g (filter f l).
Proof. induction l as [|a l IH]; cbn; auto. destruct (f a) eqn:Ef, (g a) eqn:Eg; cbn; rewrite ?Ef, ?Eg, ?IH; auto. Qed.
Lemma nodup_map_filter : forall {A B} (f : A -> B) (g : A -> bool) l, NoDup (map f l) -> NoDup (map f (filter g l)).
Proof.
  intros A B f g l. induction l as [|a l IH]; cbn; intros N; [constructor|]. inversion N; subst. destruct (g a); cbn; auto. constructor; auto.
  intros I. apply in_map_iff in I as (b & Eb & Ib). apply filter_In in Ib as [Ib _]. apply H1. rewrite <- Eb. apply in_map. exact Ib.
Qed.
Lemma nodup_map_inj : forall {A B} (f : A -> B) l a b, NoDup (map f l) -> In a l -> In b l -> f a = f b -> a = b.
Proof.
  intros A B f l a b. induction l as [|c l IH]; cbn; intros N Ia Ib Ef; [tauto|]. inversion N; subst.
  destruct Ia as [->|Ia], Ib as [->|Ib]; auto.
  - destruct H1. rewrite Ef. apply in_map. exact Ib.
  - destruct H1. rewrite <- Ef. apply in_map. exact Ia.
Qed.
Lemma in_bucket : forall (t : list (list instance)) i, In i (concat t) <-> exists h, In i (nth h t []).
Proof.
  intros t i. rewrite in_concat. split.
  - intros (b & Hb & Hi). apply (In_nth _ _ []) in Hb as (h & _ & <-). eauto.
  - intros (h & Hh). destruct (le_lt_dec (length t) h) as [L|L]; [rewrite nth_overflow in Hh by exact L; destruct Hh|]. exists (nth h t []). split; [apply nth_In; exact L|exact Hh].
Qed.
Lemma filter_all : forall {A} (g : A -> bool) l, (forall a, In a l -> g a = true) -> filter g l = l.
Proof. intros A g l. induction l as [|a l IH]; cbn; intros H; [reflexivity|]. rewrite (H a) by auto. rewrite IH by auto. reflexivity. Qed.
Lemma unlink_perm : forall l i, NoDup (map i_id l) -> In i l -> Permutation l (i :: unlink l i).
Proof.
  intros l i. induction l as [|j l IH]; cbn; intros N Hi; [tauto|]. inversion N; subst. destruct Hi as [->|Hi].
  - rewrite Z.eqb_refl. cbn [negb]. apply perm_skip. unfold unlink. rewrite filter_all; [reflexivity|].
    intros k Hk. destruct (Z.eqb_spec (i_id k) (i_id i)) as [Ek|]; [|reflexivity]. destruct H1. rewrite <- Ek. apply in_map. exact Hk.
  - destruct (Z.eqb_spec (i_id j) (i_id i)) as [Ej|]; [destruct H1; rewrite Ej; apply in_map; exact Hi|]. cbn [negb]. rewrite (IH H2 Hi) at 1. apply perm_swap.
Qed.
Lemma hash_del_filter : forall t i, hash_del t i = map (filter (fun j => negb (i_id j =? i_id i))) t.
Proof. reflexivity. Qed.

(** Removing any instances from the table leaves the rest of the invariant with
    them in [dl]. *)
Lemma tb_filter : forall (s : st) g l, tb s -> Permutation l (filter g (nf_list s)) -> tb (with_table s (map (filter g) (table s)) l).
Proof.
  intros s g l [] P. split; cbn [table nf_list next with_table].
  - rewrite map_length. exact b_len0.
  - intros h i Hi. rewrite nth_filter in Hi. apply filter_In in Hi as [Hi _]. apply b_bucket0. exact Hi.
  - intros i Hi. rewrite concat_filter in Hi. apply filter_In in Hi as [Hi _]. auto.
  - rewrite concat_filter. apply nodup_map_filter. exact b_ids0.
  - unfold instances in *. cbn [table with_table]. rewrite concat_filter. rewrite map_map in *. apply nodup_map_filter. exact b_keys0.
  - rewrite P. rewrite concat_filter, filter_comm. apply perm_filter. exact b_nf0.
  - intros i Hi. rewrite concat_filter in Hi. apply filter_In in Hi as [Hi _]. auto.
Qed.
Lemma filter_partition : forall {A} (g : A -> bool) l, Permutation l (filter (fun a => negb (g a)) l ++ filter g l).
Proof. intros A g l. induction l as [|a l IH]; cbn; [reflexivity|]. destruct (g a); cbn; [|apply perm_skip; exact IH]. rewrite <- Permutation_middle. apply perm_skip. exact IH. Qed.
Lemma hk_move : forall dl dl' (s s' : st), Permutation (dl ++ concat (table s)) (dl' ++ concat (table s')) -> hooks s' = hooks s -> next s <= next s' -> hk dl s -> hk dl' s'.
Proof.
  intros dl dl' s s' P Eh En []. split; rewrite ?Eh; auto.
  - rewrite h_perm0. apply Permutation_map, perm_filter. exact P.
  - intros i Hi. apply h_ops0. eapply Permutation_in; [symmetry; exact P|exact Hi].
  - intros h Hh. specialize (h_next0 h Hh). lia.
Qed.
Lemma rf_move : forall X X' (s s' : st), Permutation (X ++ users s) (X' ++ users s') -> objs s' = objs s -> next s <= next s' -> bad_ref s' = bad_ref s -> rf X s -> rf X' s'.
Proof.
  intros X X' s s' P Eo En Eb []. unfold refs in *. assert (Q : Permutation (flat_map databases_of (X ++ users s)) (flat_map databases_of (X' ++ users s'))) by (apply Permutation_flat_map; exact P).
  split; rewrite ?Eo, ?Eb; auto.
  - eapply objs_ok_perm; eauto.
  - intros o Ho. apply (Permutation_in _ (Permutation_sym Q)) in Ho. specialize (r_next0 o Ho). lia.
Qed.
Lemma instances_perm : forall (s s' : st) l, Permutation (concat (table s')) l -> Permutation (instances s') (map i_x l).
Proof. intros. unfold instances. apply Permutation_map. exact H. Qed.

(** Taking instances out of the table *)
Lemma detach_inv : forall dl X (s : st) g l gone, inv dl X s -> Permutation l (filter g (nf_list s)) -> Permutation gone (filter (fun i => negb (g i)) (concat (table s))) ->
  inv (gone ++ dl) (map i_x gone ++ X) (with_table s (map (filter g) (table s)) l).
Proof.
  intros dl X s g l gone [T H R C] Pl Pg. pose proof (filter_partition g (concat (table s))) as P. rewrite <- Pg in P. split.
  - apply tb_filter; auto.
  - apply (hk_move dl _ s); [|reflexivity|cbn; lia|exact H]. cbn [table with_table]. rewrite concat_filter. rewrite P at 1. rewrite app_assoc. apply Permutation_app_tail. apply Permutation_app_comm.
  - apply (rf_move X _ s); [|reflexivity|cbn; lia|reflexivity|exact R]. unfold users, instances. cbn [table cands held with_table]. rewrite concat_filter. rewrite P at 1. rewrite map_app, !app_assoc. do 3 apply Permutation_app_tail. apply Permutation_app_comm.
  - destruct C. split; auto.
Qed.

(** ** Destroying instances *)

Definition set_hooks (s : st) (h : list (Z * Z)) : st := St (table s) (nf_list s) (cands s) (objs s) h (held s) (next s) (bad_ref s) (bad_cand s).

Lemma destroy_inv : forall dl X i (s : st), inv (i :: dl) (i_x i :: X) s ->
  exists f h, destroy_jool_instance i true s = set_objs (set_hooks s h) f /\ inv dl X (set_objs (set_hooks s h) f) /\ keep (refs X s) (objs s) f.
Proof.
  intros dl X i s I.
  set (is_ops := fun h : Z * Z => match i_ops i with Some o => snd h =? o | None => false end).
  set (h := filter (fun h => negb ((fst h =? x_ns (i_x i)) && is_ops h)) (hooks s)).
  assert (Hs : exists h', (if nfi i then with_hooks (with_hooks s h false) (hooks (with_hooks s h false)) (existsb is_ops (hooks (with_hooks s h false))) else s) = set_hooks s h' /\ inv dl (i_x i :: X) (set_hooks s h')).
  { destruct I as [T [P N O L] R C]. cbn [app filter] in P. destruct (nfi i) eqn:Ni.
    - exists h. cbn [app map] in P. assert (Nd := N). rewrite P in Nd. cbn [map] in Nd. inversion Nd as [|a b N1 N2]; subst.
      destruct (i_ops i) as [o|] eqn:Eo; [|destruct (O i (or_introl eq_refl) Ni Eo)].
      assert (Eh : hook i = (x_ns (i_x i), o)) by (unfold hook; rewrite Eo; reflexivity).
      assert (Ei : forall k, is_ops k = (snd k =? o)) by (intros k; unfold is_ops; try rewrite Eo; reflexivity).
      assert (Ph : Permutation h (map hook (filter nfi (dl ++ concat (table s))))).
      { unfold h. rewrite (perm_filter _ _ _ P). cbn [filter]. rewrite Eh, Ei. cbn [fst snd]. rewrite !Z.eqb_refl. cbn [negb andb]. rewrite filter_all; [reflexivity|].
        intros k Hk. rewrite Ei. destruct (Z.eqb_spec (snd k) o) as [Ek|]; [|rewrite andb_false_r; reflexivity].
        destruct N1. try rewrite Eh. cbn [snd]. rewrite <- Ek. apply in_map. exact Hk. }
      split.
      + unfold with_hooks, set_hooks. cbn. f_equal.
        assert (Ex : existsb is_ops h = false).
        { apply not_true_iff_false. intros Ex. apply existsb_exists in Ex as (k & Hk & Ek). rewrite Ei in Ek. apply Z.eqb_eq in Ek.
          apply N1. try rewrite Eh. cbn [snd]. rewrite <- Ek. apply in_map. eapply Permutation_in; [exact Ph|exact Hk]. }
        rewrite Ex, !orb_false. reflexivity.
      + split; auto.
        * destruct T; split; auto.
        * split; cbn [hooks set_hooks table next]; auto.
          -- unfold h. apply nodup_map_filter. exact N.
          -- intros j Hj. apply O. right. exact Hj.
          -- intros k Hk. apply L. unfold h in Hk. apply filter_In in Hk. tauto.
        * destruct R; split; auto.
        * destruct C; split; auto.
    - exists (hooks s). split; [destruct s; reflexivity|]. split; auto.
      + destruct T; split; auto.
      + split; auto. intros j Hj. apply O. right. exact Hj.
      + destruct R; split; auto.
      + destruct C; split; auto. }
  destruct Hs as (h' & Es & I'). change (destroy_jool_instance i true s) with (xlator_put (i_x i) (if nfi i then with_hooks (with_hooks s h false) (hooks (with_hooks s h false)) (existsb is_ops (hooks (with_hooks s h false))) else s)). rewrite Es. destruct (put_inv _ _ _ _ I') as (f & -> & I2 & K). exists f, h'. auto.
Qed.

Lemma destroy_new : forall dl X i (s : st), inv dl (i_x i :: X) s -> i_ops i = None ->
  exists f, destroy_jool_instance i false s = set_objs s f /\ inv dl X (set_objs s f) /\ keep (refs X s) (objs s) f.
Proof.
  intros dl X i s I Eo. unfold destroy_jool_instance. rewrite Eo.
  assert (Es : (if is_netfilter (i_x i) then with_hooks s (hooks s) (existsb (fun _ => false) (hooks s)) else s) = s).
  { destruct (is_netfilter (i_x i)); [|reflexivity]. unfold with_hooks. assert (Ex : existsb (fun _ : Z * Z => false) (hooks s) = false) by (induction (hooks s); auto). rewrite Ex, orb_false. destruct s; reflexivity. }
  rewrite Es. apply put_inv. exact I.
Qed.

Lemma destroy_all : forall gone dl X (s : st), inv (gone ++ dl) (map i_x gone ++ X) s ->
  exists f h, fold_left (fun s i => destroy_jool_instance i true s) gone s = set_objs (set_hooks s h) f /\ inv dl X (set_objs (set_hooks s h) f) /\ keep (refs X s) (objs s) f.
Proof.
  intros gone. induction gone as [|i gone IH]; intros dl X s I.
  - exists (objs s), (hooks s). cbn in *. replace (set_objs (set_hooks s (hooks s)) (objs s)) with s by (destruct s; reflexivity). split; [reflexivity|]. split; [exact I|apply keep_refl].
  - cbn [fold_left]. destruct (destroy_inv _ _ _ _ I) as (f & h & -> & I1 & K1). destruct (IH _ _ _ I1) as (f2 & h2 & -> & I2 & K2).
    exists f2, h2. split; [reflexivity|]. split; [exact I2|]. eapply keep_trans; [|exact K2]. eapply keep_incl; [|exact K1].
    intros o Ho. change (refs X (set_objs (set_hooks s h) f)) with (refs X s) in *. unfold refs. rewrite <- app_assoc, flat_map_app. apply in_or_app. right. exact Ho.
Qed.

(** ** Creation *)

Context (bucket_lt : forall ns xt n, (bucket W ns xt n < 64)%nat).

Definition new_dbs (s : st) (x : xlator) : Prop :=
  match x_dbs x with
  | Siit e d => contents s (x_stats x) = Some (db_new W Stats) /\ contents s e = Some (db_new W Eamt) /\ contents s d = Some (db_new W Denylist4)
  | Nat64 p b j => contents s (x_stats x) = Some (db_new W Stats) /\ contents s p = Some (db_new W Pool4) /\
      (exists o, b = Some o /\ contents s o = Some (db_new W Bib)) /\ (exists o, j = Some o /\ contents s o = Some (db_new W Joold))
  end.

Definition grown (X : list xlator) (s s' : st) : Prop := exists f n, s' = with_next (set_objs s f) n /\ next s <= n /\ keep (refs X s) (objs s) f.
Lemma grown_refl : forall X (s : st), grown X s s.
Proof. intros X s. exists (objs s), (next s). split; [destruct s; reflexivity|]. split; [lia|apply keep_refl]. Qed.
Lemma grown_refs : forall X Y (s s' : st), grown X s s' -> refs Y s' = refs Y s.
Proof. intros X Y s s' (f & n & -> & _). reflexivity. Qed.
Lemma grown_trans : forall X (s1 s2 s3 : st), grown X s1 s2 -> grown X s2 s3 -> grown X s1 s3.
Proof.
  intros X s1 s2 s3 (f & n & -> & H1 & K1) (f2 & n2 & -> & H2 & K2). exists f2, n2. split; [reflexivity|]. cbn in H2. split; [lia|]. eapply keep_trans; [exact K1|exact K2].
Qed.
Lemma grown_incl : forall X Y (s s' : st), incl (refs Y s) (refs X s) -> grown X s s' -> grown Y s s'.
Proof. intros X Y s s' H (f & n & -> & H1 & K1). exists f, n. split; [reflexivity|]. split; [exact H1|]. eapply keep_incl; eauto. Qed.
Lemma grown_objs : forall X (s : st) f, keep (refs X s) (objs s) f -> grown X s (set_objs s f).
Proof. intros X s f K. exists f, (next s). split; [reflexivity|]. split; [lia|exact K]. Qed.

(** An allocated database: a reference that no xlator has. Represented with an
    xlator-like list. *)
Lemma alloc_step : forall L k (s : st), objs_ok (objs s) L -> (forall o, In o L -> o < next s) ->
  exists f, alloc_obj W k s = (next s, with_next (set_objs s f) (next s + 1)) /\ objs_ok f (next s :: L) /\ (forall o, In o (next s :: L) -> o < next s + 1) /\
    keep L (objs s) f /\ f (next s) = Some (db_new W k, 1).
Proof.
  intros L k s H F. destruct (alloc_spec k L s H F) as (f & E1 & H1 & K & N). exists f. split; [exact E1|]. split; [exact H1|]. split; [|auto]. intros o [<-|Ho]; [lia|apply F in Ho; lia].
Qed.

Ltac put1 o L H f HH KK := match goal with |- context [kref_put o ?t] => destruct (put_one o L t H) as (f & -> & HH & KK) end.
Lemma init_spec : forall dl X e ns n flags p (s : st), inv dl X s ->
  match xlator_init W e ns n flags p s with
  | ((OK, Some x), s') => inv dl (x :: X) s' /\ grown X s s' /\ well_formed x /\ x_ns x = ns /\ x_name x = n /\ x_flags x = flags /\
      globals_init (e_mem e) (type_of x) p = (OK, x_glob x) /\ (forall o, In o (databases_of x) -> next s <= o) /\ NoDup (databases_of x) /\ new_dbs s' x
  | ((OK, None), _) => False
  | ((Err err, _), s') => inv dl X s' /\ grown X s s'
  end.
Proof.
  intros dl X e ns n flags p s I. unfold xlator_init. destruct (xf_validate (flags2xf flags)) eqn:Ef.
  2:{ split; [exact I|apply grown_refl]. }
  apply xf_validate_spec in Ef. rewrite flags2xt_mod.
  pose proof (r_objs _ _ (v_rf _ _ _ I)) as H0. pose proof (r_next _ _ (v_rf _ _ _ I)) as F0.
  unfold XT_SIIT, XT_NAT64. destruct (Z.eqb_spec (flags mod 4) 1) as [Et|Et]; [|destruct (Z.eqb_spec (flags mod 4) 2) as [Et2|Et2]].
  - unfold init_siit, XT_SIIT. destruct (globals_init (e_mem e) 1 p) as [[|err] g] eqn:Eg; [|split; [exact I|apply grown_refl]].
    destruct (e_alloc e 1); cbn [negb]; [|split; [exact I|apply grown_refl]].
    destruct (alloc_step _ Stats s H0 F0) as (f1 & -> & H1 & F1 & K1 & N1).
    destruct (e_alloc e 2); cbn [negb].
    2:{ put1 (next s) (refs X s) H1 f2 H2 K2. cbn [objs with_next set_objs] in K2. split.
        - change (set_objs (with_next (set_objs s f1) (next s + 1)) f2) with (with_next (set_objs s f2) (next s + 1)). apply (inv_objs dl X X); auto; [lia|]. intros o Ho. apply F0 in Ho. lia.
        - exists f2, (next s + 1). split; [reflexivity|]. split; [lia|]. eapply keep_trans; [exact K1|exact K2]. }
    destruct (alloc_step (next s :: refs X s) Eamt (with_next (set_objs s f1) (next s + 1)) H1 F1) as (f2 & -> & H2 & F2 & K2 & N2). cbn [next with_next objs set_objs] in *.
    destruct (e_alloc e 3); cbn [negb].
    2:{ put1 (next s + 1) (next s :: refs X s) H2 f3 H3 K3. cbn [objs with_next set_objs] in K3.
        put1 (next s) (refs X s) H3 f4 H4 K4. cbn [objs with_next set_objs] in K4. split.
        - match goal with |- inv _ _ ?t => change t with (with_next (set_objs s f4) (next s + 1 + 1)) end. apply (inv_objs dl X X); auto; [lia|]. intros o Ho. apply F0 in Ho. lia.
        - exists f4, (next s + 1 + 1). split; [reflexivity|]. split; [lia|].
          eapply keep_trans; [exact K1|]. eapply keep_trans; [eapply keep_incl; [|exact K2]|]; [intros o Ho; cbn; auto|]. eapply keep_trans; [eapply keep_incl; [|exact K3]|exact K4]. intros o Ho; cbn; auto. }
    match goal with |- context [alloc_obj W Denylist4 ?t] => change t with (with_next (set_objs s f2) (next s + 1 + 1)) end.
    destruct (alloc_step (next s + 1 :: next s :: refs X s) Denylist4 (with_next (set_objs s f2) (next s + 1 + 1)) H2 F2) as (f3 & -> & H3 & F3 & K3 & N3). cbn [next with_next objs set_objs] in *.
    cbn [databases_of x_stats x_dbs x_ns x_name x_flags x_glob type_of].
    split; [|split; [|split; [|split; [reflexivity|split; [reflexivity|split; [reflexivity|split; [|split; [|split]]]]]]]].
    + match goal with |- inv _ _ ?t => change t with (with_next (set_objs s f3) (next s + 1 + 1 + 1)) end. apply (inv_objs dl X); auto; [lia| |].
      * rewrite refs_cons. cbn [databases_of x_stats x_dbs app]. eapply objs_ok_cnt; [|exact H3]. intros o. rewrite !cnt_cons. lia.
      * rewrite refs_cons. cbn [databases_of x_stats x_dbs app In]. intros o Ho. apply F3. cbn [In]. tauto.
    + exists f3, (next s + 1 + 1 + 1). split; [reflexivity|]. split; [lia|].
      eapply keep_trans; [exact K1|]. eapply keep_trans; [eapply keep_incl; [|exact K2]|eapply keep_incl; [|exact K3]]; intros o Ho; cbn; auto.
    + split; cbn; auto.
    + change (type_of {| x_ns := ns; x_name := n; x_flags := flags; x_glob := g; x_stats := next s; x_dbs := Siit (next s + 1) (next s + 1 + 1) |}) with (flags mod 4). rewrite Et. exact Eg.
    + intros o Ho. cbn in Ho. lia.
    + unfold databases_of. cbn [x_stats x_dbs app]. repeat (apply NoDup_cons; [cbn [In]; lia|]). apply NoDup_nil.
    + unfold new_dbs, contents. cbn [x_dbs x_stats objs with_next set_objs]. rewrite N3. rewrite (K3 (next s)), (K3 (next s + 1)), N2, (K2 (next s)), N1 by (cbn; auto). auto.
  - unfold init_nat64, XT_NAT64. destruct (globals_init (e_mem e) 2 p) as [[|err] g] eqn:Eg; [|split; [exact I|apply grown_refl]].
    destruct (e_alloc e 1); cbn [negb]; [|split; [exact I|apply grown_refl]].
    destruct (alloc_step _ Stats s H0 F0) as (f1 & -> & H1 & F1 & K1 & N1).
    destruct (e_alloc e 2); cbn [negb].
    2:{ put1 (next s) (refs X s) H1 f2 H2 K2. cbn [objs with_next set_objs] in K2. split.
        - change (set_objs (with_next (set_objs s f1) (next s + 1)) f2) with (with_next (set_objs s f2) (next s + 1)). apply (inv_objs dl X X); auto; [lia|]. intros o Ho. apply F0 in Ho. lia.
        - exists f2, (next s + 1). split; [reflexivity|]. split; [lia|]. eapply keep_trans; [exact K1|exact K2]. }
    destruct (alloc_step (next s :: refs X s) Pool4 (with_next (set_objs s f1) (next s + 1)) H1 F1) as (f2 & -> & H2 & F2 & K2 & N2). cbn [next with_next objs set_objs] in *.
    destruct (e_alloc e 3); cbn [negb].
    2:{ put1 (next s + 1) (next s :: refs X s) H2 f3 H3 K3. cbn [objs with_next set_objs] in K3.
        put1 (next s) (refs X s) H3 f4 H4 K4. cbn [objs with_next set_objs] in K4. split.
        - match goal with |- inv _ _ ?t => change t with (with_next (set_objs s f4) (next s + 1 + 1)) end. apply (inv_objs dl X X); auto; [lia|]. intros o Ho. apply F0 in Ho. lia.
        - exists f4, (next s + 1 + 1). split; [reflexivity|]. split; [lia|].
          eapply keep_trans; [exact K1|]. eapply keep_trans; [eapply keep_incl; [|exact K2]|]; [intros o Ho; cbn; auto|]. eapply keep_trans; [eapply keep_incl; [|exact K3]|exact K4]. intros o Ho; cbn; auto. }
    match goal with |- context [alloc_obj W Bib ?t] => change t with (with_next (set_objs s f2) (next s + 1 + 1)) end.
    destruct (alloc_step (next s + 1 :: next s :: refs X s) Bib (with_next (set_objs s f2) (next s + 1 + 1)) H2 F2) as (f3 & -> & H3 & F3 & K3 & N3). cbn [next with_next objs set_objs] in *.
    assert (K03 : keep (refs X s) (objs s) f3).
    { eapply keep_trans; [exact K1|]. eapply keep_trans; [eapply keep_incl; [|exact K2]|eapply keep_incl; [|exact K3]]; intros o Ho; cbn; auto. }
    destruct (e_alloc e 4); cbn [negb].
    2:{ put1 (next s + 1 + 1) (next s + 1 :: next s :: refs X s) H3 f4 H4 K4. cbn [objs with_next set_objs] in K4.
        put1 (next s + 1) (next s :: refs X s) H4 f5 H5 K5. cbn [objs with_next set_objs] in K5.
        put1 (next s) (refs X s) H5 f6 H6 K6. cbn [objs with_next set_objs] in K6. split.
        - match goal with |- inv _ _ ?t => change t with (with_next (set_objs s f6) (next s + 1 + 1 + 1)) end. apply (inv_objs dl X X); auto; [lia|]. intros o Ho. apply F0 in Ho. lia.
        - exists f6, (next s + 1 + 1 + 1). split; [reflexivity|]. split; [lia|].
          eapply keep_trans; [exact K03|]. eapply keep_trans; [eapply keep_incl; [|exact K4]|]; [intros o Ho; cbn; auto|]. eapply keep_trans; [eapply keep_incl; [|exact K5]|exact K6]. intros o Ho; cbn; auto. }
    match goal with |- context [alloc_obj W Joold ?t] => change t with (with_next (set_objs s f3) (next s + 1 + 1 + 1)) end.
    destruct (alloc_step (next s + 1 + 1 :: next s + 1 :: next s :: refs X s) Joold (with_next (set_objs s f3) (next s + 1 + 1 + 1)) H3 F3) as (f4 & -> & H4 & F4 & K4 & N4). cbn [next with_next objs set_objs] in *.
    cbn [databases_of x_stats x_dbs x_ns x_name x_flags x_glob type_of app].
    split; [|split; [|split; [|split; [reflexivity|split; [reflexivity|split; [reflexivity|split; [|split; [|split]]]]]]]].
    + match goal with |- inv _ _ ?t => change t with (with_next (set_objs s f4) (next s + 1 + 1 + 1 + 1)) end. apply (inv_objs dl X); auto; [lia| |].
      * rewrite refs_cons. cbn [databases_of x_stats x_dbs app]. eapply objs_ok_cnt; [|exact H4]. intros o. rewrite !cnt_cons. lia.
      * rewrite refs_cons. cbn [databases_of x_stats x_dbs app In]. intros o Ho. apply F4. cbn [In]. tauto.
    + exists f4, (next s + 1 + 1 + 1 + 1). split; [reflexivity|]. split; [lia|].
      eapply keep_trans; [exact K03|]. eapply keep_incl; [|exact K4]. intros o Ho; cbn; auto.
    + split; cbn; auto. split; [exact Et2|]. split; discriminate.
    + match goal with |- globals_init _ (type_of ?t) _ = _ => change (type_of t) with (flags mod 4) end. rewrite Et2. exact Eg.
    + intros o Ho. cbn in Ho. lia.
    + unfold databases_of. cbn [x_stats x_dbs app]. repeat (apply NoDup_cons; [cbn [In]; lia|]). apply NoDup_nil.
    + unfold new_dbs, contents. cbn [x_dbs x_stats objs with_next set_objs].
      rewrite (K4 (next s)), (K4 (next s + 1)), (K3 (next s)), (K3 (next s + 1)), N2, (K2 (next s)), N1 by (cbn; auto).
      split; [reflexivity|]. split; [reflexivity|]. split; (eexists; split; [reflexivity|]); [rewrite (K4 (next s + 1 + 1)), N3 by (cbn; auto); reflexivity|rewrite N4; reflexivity].
  - split; [exact I|apply grown_refl].
Qed.

(** ** Finding *)

Lemma key_eq : forall ns xt n x, well_formed x -> xt = 1 \/ xt = 2 -> ((ns =? x_ns x) && bit_and xt (x_flags x) && name_eqb n (x_name x) = true <-> key x = (ns, xt, n)).
Proof.
  intros ns xt n x F Hx. rewrite !andb_true_iff, name_eqb_spec, Z.eqb_eq. rewrite bit_and_comm, bit_and_3 by (destruct Hx as [->| ->]; reflexivity). fold (type_of x). unfold key.
  destruct (type_cases x F) as [->| ->], Hx as [->| ->]; cbn; (split; [intros [[K1 K2] K3]; congruence|intros K; inversion K; auto]).
Qed.
Lemma find_spec : forall (s : st) ns xt n, tb s -> xt = 1 \/ xt = 2 ->
  match find_instance W s ns xt n with
  | Some i => In i (concat (table s)) /\ key (i_x i) = (ns, xt, n)
  | None => ~ In (ns, xt, n) (map key (instances s))
  end.
Proof.
  intros s ns xt n T Hx. unfold find_instance. set (p := fun i => (ns =? x_ns (i_x i)) && bit_and xt (x_flags (i_x i)) && name_eqb n (x_name (i_x i))).
  destruct (find p (nth (bucket W ns xt n) (table s) [])) as [i|] eqn:Ef.
  - apply find_some in Ef as [Hi Ei]. assert (Hc : In i (concat (table s))) by (apply in_bucket; eauto). split; [exact Hc|]. apply key_eq; auto. apply (b_wf _ T). exact Hc.
  - intros Hk. unfold instances in Hk. rewrite map_map in Hk. apply in_map_iff in Hk as (i & Ek & Hi). pose proof (b_wf _ T i Hi) as F.
    apply in_bucket in Hi as (h & Hh). destruct (b_bucket _ T h i Hh) as [_ Eb]. unfold key in Ek. inversion Ek as [[E1 E2 E3]]. rewrite E1, E2, E3 in Eb. subst h.
    apply (find_none _ _ Ef) in Hh. unfold p in Hh. enough (Q : p i = true) by (unfold p in Q; congruence). apply key_eq; auto.
Qed.

(** ** Adding to the table *)

Lemma tb_add : forall (s s' : st) i h, tb s -> well_formed (i_x i) -> i_hash i = Some h -> h = bucket W (x_ns (i_x i)) (type_of (i_x i)) (x_name (i_x i)) ->
  ~ In (i_id i) (map i_id (concat (table s))) -> i_id i < next s' -> ~ In (key (i_x i)) (map key (instances s)) ->
  table s' = add_bucket (table s) h i -> Permutation (nf_list s') (if nfi i then i :: nf_list s else nf_list s) -> next s <= next s' -> tb s' /\ Permutation (concat (table s')) (i :: concat (table s)).
Proof.
  intros s s' i h [] F Hh Eh Ni Li Nk Et Pn Ln. assert (Hl : (h < length (table s))%nat) by (rewrite b_len0, Eh; apply bucket_lt).
  assert (P : Permutation (concat (table s')) (i :: concat (table s))) by (rewrite Et; apply add_bucket_perm; exact Hl). split; [|exact P]. split.
  - rewrite Et, add_bucket_len. exact b_len0.
  - intros k j Hj. rewrite Et, add_bucket_nth in Hj by exact Hl. destruct (Nat.eqb_spec k h) as [->|]; [|apply b_bucket0; exact Hj]. destruct Hj as [<-|Hj]; [|apply b_bucket0; exact Hj]. auto.
  - intros j Hj. apply (Permutation_in _ P) in Hj as [<-|Hj]; auto.
  - apply (Permutation_NoDup (l := map i_id (i :: concat (table s)))); [apply Permutation_map; symmetry; exact P|]. cbn. constructor; auto.
  - apply (Permutation_NoDup (l := map key (map i_x (i :: concat (table s))))); [do 2 apply Permutation_map; symmetry; exact P|]. cbn. constructor; auto.
  - rewrite Pn. rewrite (perm_filter nfi _ _ P). cbn [filter]. destruct (nfi i); [apply perm_skip|]; exact b_nf0.
  - intros j Hj. apply (Permutation_in _ P) in Hj as [<-|Hj]; [exact Li|]. specialize (b_next0 j Hj). lia.
Qed.

Lemma users_add : forall (s s' : st) i l, Permutation (concat (table s')) (i :: l) -> cands s' = cands s -> held s' = held s -> Permutation (users s') (i_x i :: map i_x l ++ map c_x (cands s) ++ held s).
Proof. intros s s' i l P Ec Eh. unfold users, instances. rewrite Ec, Eh, P. reflexivity. Qed.

Lemma add_locked_spec : forall dl X e new (s : st), inv dl (i_x new :: X) s -> well_formed (i_x new) -> i_hash new = None -> i_ops new = None ->
  ~ In (i_id new) (map i_id (concat (table s))) -> i_id new < next s -> ~ In (key (i_x new)) (map key (instances s)) ->
  match xlator_add_locked W e new s with
  | (OK, s') => inv dl X s' /\ (exists i, i_x i = i_x new /\ Permutation (concat (table s')) (i :: concat (table s))) /\
      objs s' = objs s /\ cands s' = cands s /\ held s' = held s /\ bad_cand s' = bad_cand s
  | (Err _, s') => s' = s
  end.
Proof.
  intros dl X e new s [T H R C] F Eh Eo Ni Li Nk. unfold xlator_add_locked.
  assert (Hash : forall j, i_hash j = None -> i_hash (set_hash W j) = Some (bucket W (x_ns (i_x j)) (type_of (i_x j)) (x_name (i_x j)))).
  { intros j Ej. unfold set_hash. cbn. f_equal. unfold get_instance_hash. rewrite Ej, flags2xt_mod. reflexivity. }
  fold (nfi new). destruct (nfi new) eqn:En.
  - destruct (e_alloc e 5); cbn [negb]; [|reflexivity]. destruct (e_hook e); [|reflexivity].
    set (i := set_hash W {| i_id := i_id new; i_x := i_x new; i_hash := i_hash new; i_ops := Some (next s) |}).
    assert (Ex : i_x i = i_x new) by reflexivity. assert (Eid : i_id i = i_id new) by reflexivity.
    change (is_netfilter (i_x i)) with (nfi new). rewrite En.
    set (s1 := with_next (with_hooks s ((x_ns (i_x new), next s) :: hooks s) false) (next s + 1)).
    set (s2 := with_table s1 _ _).
    assert (Hi : i_hash i = Some (bucket W (x_ns (i_x new)) (type_of (i_x new)) (x_name (i_x new)))) by (unfold i; rewrite Hash; [reflexivity|exact Eh]).
    destruct (tb_add s s2 i (bucket W (x_ns (i_x new)) (type_of (i_x new)) (x_name (i_x new)))) as [T2 P2]; auto; try (cbn; lia).
    { unfold s2. cbn [table with_table]. f_equal. unfold get_instance_hash. rewrite Hi. reflexivity. }
    { change (nfi i) with (nfi new). rewrite En. cbn. symmetry. apply Permutation_cons_append. }
    assert (Eb : bad_ref s2 = false) by (cbn; rewrite (r_ref _ _ R); reflexivity).
    split; [split|].
    + exact T2.
    + destruct H. split.
      * change (hooks s2) with ((x_ns (i_x new), next s) :: hooks s). rewrite h_perm0.
        assert (Q : Permutation (dl ++ concat (table s2)) (i :: dl ++ concat (table s))) by (rewrite P2; symmetry; apply Permutation_middle).
        rewrite (perm_filter nfi _ _ Q). cbn [filter]. change (nfi i) with (nfi new). rewrite En. reflexivity.
      * cbn. constructor; auto. intros Hk. apply in_map_iff in Hk as (k & Ek & Hk). specialize (h_next0 k Hk). lia.
      * intros j Hj Nj. apply in_app_or in Hj as [Hj|Hj]; [apply h_ops0; auto; apply in_or_app; auto|]. apply (Permutation_in _ P2) in Hj as [<-|Hj]; [discriminate|apply h_ops0; auto; apply in_or_app; auto].
      * intros k [<-|Hk]; cbn; [lia|]. specialize (h_next0 k Hk). lia.
    + apply (rf_move (i_x new :: X) _ s); auto; [|cbn; lia|rewrite Eb; symmetry; apply (r_ref _ _ R)].
      rewrite (users_add s s2 i _ P2) by reflexivity. rewrite <- Ex. cbn [app]. apply Permutation_middle.
    + destruct C. split; auto. intros c Hc. specialize (c_next0 c Hc). cbn. lia.
    + split; [exists i; auto|]. repeat split; reflexivity.
  - set (i := set_hash W new). assert (Ex : i_x i = i_x new) by reflexivity. assert (Eid : i_id i = i_id new) by reflexivity.
    change (is_netfilter (i_x i)) with (nfi new). rewrite En. set (s2 := with_table s _ _).
    assert (Hi : i_hash i = Some (bucket W (x_ns (i_x new)) (type_of (i_x new)) (x_name (i_x new)))) by (unfold i; rewrite Hash; [reflexivity|exact Eh]).
    destruct (tb_add s s2 i (bucket W (x_ns (i_x new)) (type_of (i_x new)) (x_name (i_x new)))) as [T2 P2]; auto; try (cbn; lia).
    { unfold s2. cbn [table with_table]. f_equal. unfold get_instance_hash. rewrite Hi. reflexivity. }
    { change (nfi i) with (nfi new). rewrite En. reflexivity. }
    split; [split|].
    + exact T2.
    + destruct H. split; auto.
      * change (hooks s2) with (hooks s). rewrite h_perm0.
        assert (Q : Permutation (dl ++ concat (table s2)) (i :: dl ++ concat (table s))) by (rewrite P2; symmetry; apply Permutation_middle).
        rewrite (perm_filter nfi _ _ Q). cbn [filter]. change (nfi i) with (nfi new). rewrite En. reflexivity.
      * intros j Hj Nj. apply in_app_or in Hj as [Hj|Hj]; [apply h_ops0; auto; apply in_or_app; auto|]. apply (Permutation_in _ P2) in Hj as [<-|Hj]; [change (nfi i) with (nfi new) in Nj; congruence|apply h_ops0; auto; apply in_or_app; auto].
    + apply (rf_move (i_x new :: X) _ s); auto; [|cbn; lia].
      rewrite (users_add s s2 i _ P2) by reflexivity. rewrite <- Ex. cbn [app]. apply Permutation_middle.
    + destruct C. split; auto.
    + split; [exists i; auto|]. repeat split; reflexivity.
Qed.

Lemma basic_spec : forall n flags, basic_validations n flags = OK <-> valid_name n /\ (flags mod 4 = 1 \/ flags mod 4 = 2).
Proof.
  intros n flags. unfold basic_validations, iname_validate, valid_name. rewrite flags2xt_mod.
  destruct (Nat.ltb_spec (length n) 16); cbn [andb]; [|split; [discriminate|intros; lia]].
  destruct (forallb (fun c : Z => 32 <=? c) n) eqn:Ef.
  - rewrite xt_validate_spec. enough (Forall (fun c => 32 <= c) n) by tauto. rewrite forallb_forall in Ef. apply Forall_forall. intros c Hc. apply Ef in Hc. lia.
  - split; [discriminate|]. intros [[_ K] _]. apply not_true_iff_false in Ef. destruct Ef. apply forallb_forall. intros c Hc. rewrite Forall_forall in K. apply K in Hc. lia.
Qed.
Lemma iname_spec : forall n, iname_validate n = OK <-> valid_name n.
Proof.
  intros n. pose proof (basic_spec n 1) as H. unfold basic_validations in H. destruct (iname_validate n) eqn:En; [|split; [discriminate|]].
  - split; auto. intros _. apply H. reflexivity.
  - intros V. assert (Q : Err e = OK) by (apply H; split; [exact V|left; reflexivity]). discriminate.
Qed.
Lemma basic_add_spec : forall n flags p, basic_add_validations n flags p = OK <->
  valid_name n /\ (flags mod 4 = 1 \/ flags mod 4 = 2) /\ ((flags / 4) mod 4 = 1 \/ (flags / 4) mod 4 = 2) /\ (flags mod 4 = 2 -> p <> None).
Proof.
  intros n flags p. unfold basic_add_validations. pose proof (basic_spec n flags) as B. pose proof (xf_validate_spec flags) as X.
  destruct (basic_validations n flags); [|split; [discriminate|intros; destruct B as [_ B]; discriminate B; tauto]].
  destruct (xf_validate (flags2xf flags)); [|split; [discriminate|intros; destruct X as [_ X]; discriminate X; tauto]].
  destruct B as [B _], X as [X _]. specialize (B eq_refl). specialize (X eq_refl). destruct B as [B1 B2]. unfold XT_NAT64. rewrite bit_and_3 by reflexivity.
  destruct B2 as [B2|B2]; rewrite B2; destruct p; cbn; split; intros; try congruence; intuition congruence || lia.
Qed.
Lemma collision_spec : forall (s : st) ns n flags, tb s -> validate_collision s ns n flags = OK <->
  (forall x, In x (instances s) -> x_ns x = ns -> type_of x = flags mod 4 -> x_name x <> n /\ ~ (bit_and flags XF_NETFILTER = true /\ framework_of x = 1)).
Proof.
  intros s ns n flags T. unfold validate_collision. set (p := fun i : instance => _).
  destruct (existsb p (all_instances (table s))) eqn:Ex.
  - split; [discriminate|]. intros K. apply existsb_exists in Ex as (i & Hi & Pi). unfold p in Pi. rewrite !andb_true_iff, orb_true_iff, andb_true_iff, name_eqb_spec, !Z.eqb_eq, !flags2xt_mod in Pi.
    destruct Pi as [[P1 P2] P3]. destruct (K (i_x i)) as [K1 K2]; auto; [apply in_map; exact Hi|]. destruct P3 as [P3|[P3 P4]]; [contradiction|]. destruct K2. split; [exact P3|].
    rewrite is_netfilter_spec in P4 by (apply (b_wf _ T); exact Hi). lia.
  - split; [|reflexivity]. intros _ x Hx E1 E2. apply in_map_iff in Hx as (i & <- & Hi). apply not_true_iff_false in Ex. rewrite existsb_exists in Ex.
    assert (Q : p i <> true) by (intros Q; apply Ex; eauto). unfold p in Q. rewrite !andb_true_iff, orb_true_iff, andb_true_iff, name_eqb_spec, !Z.eqb_eq, !flags2xt_mod in Q.
    rewrite is_netfilter_spec in Q by (apply (b_wf _ T); exact Hi). fold (type_of (i_x i)) in Q. rewrite Z.eqb_eq in Q. tauto.
Qed.

(** ** xlator_add *)

Lemma fresh_id : forall (s : st) i, tb s -> i_id i = next s -> ~ In (i_id i) (map i_id (concat (table s))).
Proof. intros s i T Ei Hi. apply in_map_iff in Hi as (j & Ej & Hj). apply (b_next _ T) in Hj. lia. Qed.

Lemma add_spec : forall X e flags n p (s : st), inv [] X s ->
  match xlator_add W e flags n p s with
  | (OK, s') => inv [] X s' /\ basic_add_validations n flags p = OK /\ validate_collision s (e_ns e) n flags = OK /\
      (exists i, let x := i_x i in Permutation (concat (table s')) (i :: concat (table s)) /\ x_ns x = e_ns e /\ x_name x = n /\ x_flags x = flags /\
       globals_init (e_mem e) (type_of x) p = (OK, x_glob x) /\ (forall o, In o (databases_of x) -> next s <= o) /\ NoDup (databases_of x) /\ new_dbs s' x) /\
      keep (refs X s) (objs s) (objs s') /\ cands s' = cands s /\ held s' = held s /\ bad_cand s' = bad_cand s
  | (Err err, s') => inv [] X s' /\ grown X s s' /\ (basic_add_validations n flags p = OK -> validate_collision s (e_ns e) n flags = OK -> (forall k, e_alloc e k = true) -> e_hook e = OK ->
       exists g, globals_init (e_mem e) (flags mod 4) p = (Err err, g))
  end.
Proof.
  intros X e flags n p s I. unfold xlator_add. destruct (basic_add_validations n flags p) eqn:Eb.
  2:{ split; [exact I|]. split; [apply grown_refl|]. discriminate. }
  apply basic_add_spec in Eb as B. destruct B as (B1 & B2 & B3 & B4).
  destruct (e_alloc e 0) eqn:Ea; cbn [negb].
  2:{ split; [exact I|]. split; [apply grown_refl|]. intros _ _ K. rewrite K in Ea. discriminate. }
  pose proof (init_spec [] X e (e_ns e) n flags p s I) as Hi. destruct (xlator_init W e (e_ns e) n flags p s) as [[[|err] [x|]] s1] eqn:Ei.
  - destruct Hi as (I1 & G & F & Ns & Nm & Fl & Eg & Fr & Nd & Ne).
    assert (Es1 : refs X s1 = refs X s) by (apply (grown_refs X); exact G).
    assert (Tc : validate_collision (with_next s1 (next s1 + 1)) (e_ns e) n flags = validate_collision s (e_ns e) n flags) by (destruct G as (f & n' & -> & _); reflexivity).
    assert (I2 : inv [] (x :: X) (with_next s1 (next s1 + 1))).
    { change (with_next s1 (next s1 + 1)) with (with_next (set_objs s1 (objs s1)) (next s1 + 1)). eapply inv_objs; [exact I1|lia|apply (v_rf _ _ _ I1)|]. intros o Ho. apply (r_next _ _ (v_rf _ _ _ I1)) in Ho. lia. }
    assert (G2 : grown X s (with_next s1 (next s1 + 1))).
    { destruct G as (f & n' & -> & Hn & K). exists f, (n' + 1). split; [reflexivity|]. split; [lia|exact K]. }
    set (s2 := with_next s1 (next s1 + 1)) in *. set (new := {| i_id := next s1; i_x := x; i_hash := None; i_ops := None |}).
    rewrite Tc. destruct (validate_collision s (e_ns e) n flags) eqn:Ec.
    + pose proof (add_locked_spec [] X e new s2 I2 F eq_refl eq_refl) as HA.
      assert (Hs2 : table s2 = table s) by (destruct G2 as (f & n' & -> & _); reflexivity).
      assert (L : In (key x) (map key (instances s)) -> False).
      { intros Hk. apply in_map_iff in Hk as (y & Ek & Hy). rewrite (collision_spec s) in Ec by apply (v_tb _ _ _ I). unfold key in Ek. assert (E1 : x_ns y = x_ns x) by congruence. assert (E2 : type_of y = type_of x) by congruence. assert (E3 : x_name y = x_name x) by congruence.
        destruct (Ec y Hy) as [Q _]; [congruence|rewrite E2, <- Fl; reflexivity|congruence]. }
      destruct (xlator_add_locked W e new s2) as [[|err] s3] eqn:El.
      * destruct HA as (I3 & (i & Exi & P) & Eo & Ec3 & Eh3 & Ebc).
        { apply (fresh_id s1 new (v_tb _ _ _ I1) eq_refl). }
        { cbn. lia. }
        { unfold instances. rewrite Hs2. exact L. }
        split; [exact I3|]. split; [reflexivity|]. split; [reflexivity|]. destruct G2 as (f & n' & G2 & Hn & K). rewrite G2 in *. cbn [objs cands held bad_cand with_next set_objs table] in *. split; [|split; [|auto]].
        -- exists i. cbv zeta. rewrite Exi. cbn [new i_x]. split; [exact P|]. split; [exact Ns|]. split; [exact Nm|]. split; [exact Fl|]. split; [exact Eg|]. split; [exact Fr|]. split; [exact Nd|].
           unfold new_dbs, contents in *. rewrite Eo. assert (Ef : f = objs s1) by (change (objs s1) with (objs s2); rewrite G2; reflexivity). rewrite Ef. exact Ne.
        -- rewrite Eo. exact K.
      * rewrite HA; cycle 1.
        { apply (fresh_id s1 new (v_tb _ _ _ I1) eq_refl). }
        { cbn. lia. }
        { unfold instances. rewrite Hs2. exact L. }
        destruct (destroy_new [] X new s2 I2 eq_refl) as (f & -> & I3 & K). split; [exact I3|]. split.
        -- eapply grown_trans; [exact G2|]. apply grown_objs. exact K.
        -- intros _ _ Al Hh. unfold xlator_add_locked in El. rewrite Al, Hh in El. destruct (is_netfilter (i_x new)); cbn [negb] in El; discriminate.
    + destruct (destroy_new [] X new s2 I2 eq_refl) as (f & -> & I3 & K). split; [exact I3|]. split; [|discriminate].
      eapply grown_trans; [exact G2|]. apply grown_objs. exact K.
  - destruct Hi.
  - destruct Hi as [I1 G]. split; [exact I1|]. split; [exact G|]. intros _ _ Al _.
    unfold xlator_init in Ei. apply xf_validate_spec in B3. rewrite B3, flags2xt_mod in Ei. unfold XT_SIIT, XT_NAT64 in Ei.
    destruct B2 as [B2|B2]; rewrite B2 in Ei |- *; cbn [Z.eqb Pos.eqb] in Ei; [unfold init_siit in Ei|unfold init_nat64 in Ei]; rewrite !Al in Ei; cbn [negb] in Ei;
      [change XT_SIIT with 1 in Ei; destruct (globals_init (e_mem e) 1 p) as [[|] ?]|change XT_NAT64 with 2 in Ei; destruct (globals_init (e_mem e) 2 p) as [[|] ?]];
      repeat (destruct (alloc_obj W _ _) in Ei); inversion Ei.
  - destruct Hi as [I1 G]. split; [exact I1|]. split; [exact G|]. intros _ _ Al _.
    unfold xlator_init in Ei. apply xf_validate_spec in B3. rewrite B3, flags2xt_mod in Ei. unfold XT_SIIT, XT_NAT64 in Ei.
    destruct B2 as [B2|B2]; rewrite B2 in Ei |- *; cbn [Z.eqb Pos.eqb] in Ei; [unfold init_siit in Ei|unfold init_nat64 in Ei]; rewrite !Al in Ei; cbn [negb] in Ei;
      [change XT_SIIT with 1 in Ei; destruct (globals_init (e_mem e) 1 p) as [[|] ?]|change XT_NAT64 with 2 in Ei; destruct (globals_init (e_mem e) 2 p) as [[|] ?]];
      repeat (destruct (alloc_obj W _ _) in Ei); inversion Ei; eauto.
Qed.

(** ** Removal *)

Definition ne (i : instance) : instance -> bool := fun j => negb (i_id j =? i_id i).
Lemma nf_in : forall (s : st) j, tb s -> In j (nf_list s) -> In j (concat (table s)) /\ nfi j = true.
Proof. intros s j T Hj. apply (Permutation_in _ (b_nf _ T)) in Hj. apply filter_In in Hj. exact Hj. Qed.
Lemma ids_inj : forall (s : st) i j, tb s -> In i (concat (table s)) -> In j (concat (table s)) -> i_id i = i_id j -> i = j.
Proof. intros s i j T Hi Hj Eq. eapply nodup_map_inj; [apply (b_ids _ T)|auto..]. Qed.
Lemma nf_unlink : forall (s : st) i, tb s -> In i (concat (table s)) -> (if nfi i then unlink (nf_list s) i else nf_list s) = filter (ne i) (nf_list s).
Proof.
  intros s i T Hi. destruct (nfi i) eqn:Ei; [reflexivity|]. symmetry. apply filter_all. intros j Hj. destruct (nf_in s j T Hj) as [H1 H2]. unfold ne.
  destruct (Z.eqb_spec (i_id j) (i_id i)) as [Eq|]; [|reflexivity]. apply (ids_inj s) in Eq; auto. congruence.
Qed.
Lemma filter_none : forall {A} (g h : A -> bool) l, (forall a, In a l -> h a = true -> g a = false) -> filter g (filter h l) = [].
Proof. intros A g h l. induction l as [|a l IH]; cbn; intros H; [reflexivity|]. destruct (h a) eqn:Ha; cbn; [rewrite (H a) by auto|]; apply IH; auto. Qed.
Lemma unlink_gone : forall (s : st) i, tb s -> In i (concat (table s)) -> Permutation [i] (filter (fun j => negb (ne i j)) (concat (table s))).
Proof.
  intros s i T Hi. pose proof (unlink_perm _ i (b_ids _ T) Hi) as P. rewrite (perm_filter _ _ _ P). cbn [filter]. unfold ne at 1. rewrite Z.eqb_refl. cbn [negb].
  apply perm_skip. unfold unlink. rewrite filter_none; [reflexivity|]. intros j _ Hj. unfold ne. rewrite Hj. reflexivity.
Qed.

Lemma rm_spec : forall X e xt n (s : st), inv [] X s ->
  match xlator_rm W e xt n s with
  | (OK, s') => inv [] X s' /\ (exists i, In i (concat (table s)) /\ key (i_x i) = (e_ns e, xt, n) /\ concat (table s') = unlink (concat (table s)) i) /\
      keep (refs X s') (objs s) (objs s') /\ cands s' = cands s /\ held s' = held s /\ bad_cand s' = bad_cand s
  | (Err err, s') => s' = s /\ (valid_name n -> xt = 1 \/ xt = 2 -> err = ESRCH /\ ~ In (e_ns e, xt, n) (map key (instances s)))
  end.
Proof.
  intros X e xt n s I. unfold xlator_rm. pose proof (xt_validate_spec xt) as Vx. destruct (xt_validate xt); [|split; [reflexivity|]; intros _ V; apply Vx in V; discriminate].
  pose proof (iname_spec n) as Vn. destruct (iname_validate n); [|split; [reflexivity|]; intros V _; apply Vn in V; discriminate].
  assert (Hx : xt = 1 \/ xt = 2) by (apply Vx; reflexivity). pose proof (find_spec s (e_ns e) xt n (v_tb _ _ _ I) Hx) as Fs.
  destruct (find_instance W s (e_ns e) xt n) as [i|]; [|split; [reflexivity|auto]]. destruct Fs as [Hi Ki].
  fold (nfi i). rewrite (nf_unlink s i (v_tb _ _ _ I) Hi). rewrite hash_del_filter. change (fun j => negb (i_id j =? i_id i)) with (ne i).
  pose proof (detach_inv [] X s (ne i) (filter (ne i) (nf_list s)) [i] I (Permutation_refl _) (unlink_gone s i (v_tb _ _ _ I) Hi)) as I1. cbn [app map] in I1.
  destruct (destroy_inv [] X i _ I1) as (f & h & -> & I2 & K). split; [exact I2|]. split; [exists i; split; [exact Hi|]; split; [exact Ki|]; cbn; apply concat_filter|].
  split; [exact K|]. repeat split; reflexivity.
Qed.

Lemma fold_unlink : forall gone l, fold_left (fun l i => if is_netfilter (i_x i) then unlink l i else l) gone l = filter (fun j => forallb (fun i => negb (nfi i) || ne i j) gone) l.
Proof.
  induction gone as [|i gone IH]; intros l; cbn [fold_left forallb]; [symmetry; apply filter_all; auto|]. rewrite IH. fold (nfi i). destruct (nfi i); cbn [negb orb andb]; [|reflexivity].
  unfold unlink. induction l as [|j l IHl]; cbn [filter]; [reflexivity|]. unfold ne at 2. destruct (negb (i_id j =? i_id i)); cbn [filter andb]; rewrite IHl; reflexivity.
Qed.

Definition gonep (ns xt : Z) (i : instance) : bool := (x_ns (i_x i) =? ns) && bit_and (x_flags (i_x i)) xt.
Lemma flush_spec : forall X ns xt (s : st), inv [] X s ->
  inv [] X (flush_net ns xt s) /\ concat (table (flush_net ns xt s)) = filter (fun i => negb (gonep ns xt i)) (concat (table s)) /\
  keep (refs X (flush_net ns xt s)) (objs s) (objs (flush_net ns xt s)) /\ cands (flush_net ns xt s) = cands s /\ held (flush_net ns xt s) = held s /\ bad_cand (flush_net ns xt s) = bad_cand s.
Proof.
  intros X ns xt s I. set (gone := gonep ns xt). set (l := fold_left (fun l i => if is_netfilter (i_x i) then unlink l i else l) (filter gone (concat (table s))) (nf_list s)).
  assert (Ef : flush_net ns xt s = fold_left (fun s i => destroy_jool_instance i true s) (rev (filter gone (concat (table s)))) (with_table s (map (filter (fun i => negb (gone i))) (table s)) l)).
  { unfold flush_net. rewrite rev_involutive. reflexivity. }
  rewrite Ef. clear Ef.
  assert (El : l = filter (fun i => negb (gone i)) (nf_list s)).
  { unfold l. rewrite fold_unlink. apply filter_ext_in. intros j Hj. destruct (nf_in s j (v_tb _ _ _ I) Hj) as [H1 H2]. destruct (gone j) eqn:Gj; cbn [negb].
    - apply not_true_iff_false. intros Fb. rewrite forallb_forall in Fb. specialize (Fb j). rewrite filter_In, H2 in Fb. specialize (Fb (conj H1 Gj)). unfold ne in Fb. rewrite Z.eqb_refl in Fb. discriminate.
    - apply forallb_forall. intros i Hi. apply filter_In in Hi as [Hi Gi]. unfold ne. destruct (Z.eqb_spec (i_id j) (i_id i)) as [Eq|]; [|apply orb_true_r]. apply (ids_inj s) in Eq; auto; [congruence|apply I]. }
  pose proof (detach_inv [] X s (fun i => negb (gone i)) l (rev (filter gone (concat (table s)))) I) as I1. rewrite El in I1 at 1. specialize (I1 (Permutation_refl _)).
  assert (I2 := I1 ltac:(rewrite <- Permutation_rev; erewrite filter_ext; [reflexivity|]; intros a; apply eq_sym, negb_involutive)). clear I1.
  destruct (destroy_all _ _ _ _ I2) as (f & h & -> & I3 & K). cbn [app] in *. split; [exact I3|]. split; [cbn; apply concat_filter|]. split; [exact K|]. repeat split; reflexivity.
Qed.

(** ** Replacement *)

Lemma framework_eq : forall x y, well_formed x -> well_formed y -> (xlator_get_framework x =? xlator_get_framework y) = true <-> framework_of x = framework_of y.
Proof.
  intros x y Fx Fy. unfold xlator_get_framework. rewrite !is_netfilter_spec by assumption. destruct Fx as [Fx _], Fy as [Fy _].
  destruct Fx as [->| ->], Fy as [->| ->]; cbn; split; congruence.
Qed.
Lemma inherit_fields : forall x old, x_ns (inherit x old) = x_ns x /\ x_name (inherit x old) = x_name x /\ x_flags (inherit x old) = x_flags x /\ x_glob (inherit x old) = x_glob x /\ x_stats (inherit x old) = x_stats x.
Proof. intros x old. unfold inherit. destruct (x_dbs x), (x_dbs old); auto. Qed.
Lemma inherit_wf : forall x old, well_formed x -> well_formed old -> type_of x = type_of old -> well_formed (inherit x old).
Proof.
  intros x old [F1 F2] [G1 G2] Et. destruct (inherit_fields x old) as (_ & _ & Ef & _). unfold well_formed, framework_of, type_of in *. rewrite Ef. split; [exact F1|]. unfold inherit.
  destruct (x_dbs x) eqn:Ex, (x_dbs old) eqn:Eo; cbn [x_dbs]; rewrite ?Ex; auto; tauto.
Qed.

(** What is left of the replaced instance: its statistics and tables, less its BIB and joold *)
Definition leftover (x0 : xlator) : xlator := match x_dbs x0 with Nat64 p _ _ => Xl (x_ns x0) (x_name x0) (x_flags x0) (x_glob x0) (x_stats x0) (Nat64 p None None) | _ => x0 end.

Lemma swap_dbs : forall x old L (s : st), well_formed x -> well_formed old -> type_of x = type_of old -> objs_ok (objs s) (databases_of x ++ databases_of old ++ L) ->
  exists f, (match x_dbs x, x_dbs old with
    | Nat64 p b j, Nat64 _ b' j' =>
      let s := match b with Some b => kref_put b s | None => with_objs s (objs s) true end in
      let s := match j with Some j => kref_put j s | None => with_objs s (objs s) true end in
      (Xl (x_ns x) (x_name x) (x_flags x) (x_glob x) (x_stats x) (Nat64 p b' j'), s)
    | _, _ => (x, s)
    end) = (inherit x old, set_objs s f) /\ objs_ok f (databases_of (leftover old) ++ databases_of (inherit x old) ++ L) /\
    keep (databases_of (leftover old) ++ databases_of (inherit x old) ++ L) (objs s) f.
Proof.
  intros x old L s [_ F] [_ G] Et H. unfold inherit, leftover. rewrite Et in F. destruct (x_dbs x) as [e d|p b j] eqn:Ex, (x_dbs old) as [e' d'|p' b' j'] eqn:Eo.
  - exists (objs s). split; [f_equal; destruct s; reflexivity|]. split; [|apply keep_refl]. eapply objs_ok_cnt; [|exact H]. intros o. rewrite !cnt_app. lia.
  - destruct G; congruence.
  - destruct F; congruence.
  - destruct F as (_ & Fb & Fj), G as (_ & Gb & Gj). destruct b as [b|], j as [j|], b' as [b'|], j' as [j'|]; try congruence. cbv zeta.
    unfold databases_of in *. rewrite Ex, Eo in H. cbn [x_dbs x_stats app] in *.
    set (M := [x_stats old; p'; x_stats x; p; b'; j'] ++ L).
    assert (H' : objs_ok (objs s) (b :: j :: M)) by (eapply objs_ok_cnt; [|exact H]; intros o; unfold M; cbn [app]; rewrite !cnt_cons; lia).
    destruct (put_one _ _ s H') as (f1 & -> & H1 & K1). destruct (put_one _ _ (set_objs s f1) H1) as (f2 & -> & H2 & K2). exists f2. split; [reflexivity|].
    split; [exact H2|]. change (keep M (objs s) f2). eapply keep_trans; [|exact K2]. eapply keep_incl; [|exact K1]. intros o Ho. right. exact Ho.
Qed.

Lemma replace_spec : forall X e x (s : st), inv [] X s -> well_formed x -> incl (databases_of x) (refs X s) ->
  match xlator_replace W e x s with
  | (OK, s') => inv [] X s' /\ valid_name (x_name x) /\ (type_of x = 2 -> set6 (pool6 (x_glob x)) = true) /\
      ((~ In (key x) (map key (instances s)) /\ (exists i, i_x i = x /\ Permutation (concat (table s')) (i :: concat (table s)))) \/
       (exists old new, In old (concat (table s)) /\ key (i_x old) = key x /\ framework_of (i_x old) = framework_of x /\
         (type_of x = 2 -> prefix6_equals (pre6 (pool6 (x_glob (i_x old)))) (pre6 (pool6 (x_glob x))) = true) /\
         i_x new = inherit x (i_x old) /\ hooks s' = hooks s /\ Permutation (concat (table s')) (new :: unlink (concat (table s)) old) /\
         nf_list s' = (if nfi old then new :: unlink (nf_list s) old else nf_list s))) /\
      keep (refs X s') (objs s) (objs s') /\ cands s' = cands s /\ held s' = held s /\ bad_cand s' = bad_cand s
  | (Err err, s') => inv [] X s' /\ grown X s s'
  end.
Proof.
  intros X e x s I F L. unfold xlator_replace. set (p6 := if set6 (pool6 (x_glob x)) then _ else _). destruct (basic_add_validations (x_name x) (x_flags x) p6) eqn:Eb; [|split; [exact I|apply grown_refl]].
  apply basic_add_spec in Eb. destruct Eb as (Vn & _ & _ & V6). fold (type_of x) in V6.
  assert (V6' : type_of x = 2 -> set6 (pool6 (x_glob x)) = true). { intros Ty. specialize (V6 Ty). unfold p6 in V6. destruct (set6 (pool6 (x_glob x))); congruence. }
  assert (Al : forall o, In o (databases_of x) -> exists d, contents s o = Some d).
  { intros o Ho. apply L in Ho. apply (objs_ok_alive _ _ _ (r_objs _ _ (v_rf _ _ _ I))) in Ho. unfold contents. destruct (objs s o) as [[d m]|]; [cbn; eauto|congruence]. }
  destruct (basic_replace_validations W s x) as [[|err]|] eqn:Er.
  2:{ split; [exact I|apply grown_refl]. }
  2:{ exfalso. unfold basic_replace_validations in Er. destruct F as [_ F]. destruct (x_dbs x) as [ea de|p [b|] [j|]] eqn:Ex; try discriminate; try (destruct F as (? & ? & ?); congruence).
      destruct (Al p) as [d ->] in Er; [unfold databases_of; rewrite Ex; cbn; tauto|]. destruct (Al b) as [d' ->] in Er; [unfold databases_of; rewrite Ex; cbn; tauto|]. discriminate. }
  clear Er. destruct (e_alloc e 6); cbn [negb]; [|split; [exact I|apply grown_refl]].
  assert (I0 : inv [] X (with_next s (next s + 1))).
  { change (with_next s (next s + 1)) with (with_next (set_objs s (objs s)) (next s + 1)). eapply inv_objs; [exact I|lia|apply (v_rf _ _ _ I)|]. intros o Ho. apply (r_next _ _ (v_rf _ _ _ I)) in Ho. lia. }
  destruct (get_inv [] X x (with_next s (next s + 1)) I0 (full_wf x F) L) as (f1 & -> & I1 & K1).
  set (s1 := set_objs (with_next s (next s + 1)) f1) in *. change (refs X (with_next s (next s + 1))) with (refs X s) in K1. cbn [objs with_next] in K1.
  assert (G1 : grown X s s1) by (exists f1, (next s + 1); split; [reflexivity|split; [lia|exact K1]]).
  set (new0 := {| i_id := next s; i_x := x; i_hash := None; i_ops := None |}).
  change (find_instance W s1 (x_ns x) (flags2xt (x_flags x)) (x_name x)) with (find_instance W s (x_ns x) (flags2xt (x_flags x)) (x_name x)). rewrite flags2xt_mod. fold (type_of x).
  pose proof (find_spec s (x_ns x) (type_of x) (x_name x) (v_tb _ _ _ I) (type_cases x F)) as Fs. fold (key x) in Fs.
  destruct (find_instance W s (x_ns x) (type_of x) (x_name x)) as [old|].
  - destruct Fs as [Hold Kold]. assert (Fold : well_formed (i_x old)) by (apply (b_wf _ (v_tb _ _ _ I)); exact Hold).
    destruct (xlator_get_framework (i_x old) =? xlator_get_framework x) eqn:Efw; cbn [negb].
    2:{ destruct (destroy_new [] X new0 s1 I1 eq_refl) as (f & -> & I2 & K2). split; [exact I2|]. eapply grown_trans; [exact G1|]. apply grown_objs. exact K2. }
    apply framework_eq in Efw; auto.
    destruct (is_nat64 x && negb (prefix6_equals (pre6 (pool6 (x_glob (i_x old)))) (pre6 (pool6 (x_glob x))))) eqn:E6.
    { destruct (destroy_new [] X new0 s1 I1 eq_refl) as (f & -> & I2 & K2). split; [exact I2|]. eapply grown_trans; [exact G1|]. apply grown_objs. exact K2. }
    rewrite is_nat64_spec in E6 by exact F.
    assert (Ens : x_ns (i_x old) = x_ns x) by (unfold key in Kold; congruence). assert (Ety : type_of (i_x old) = type_of x) by (unfold key in Kold; congruence). assert (Enm : x_name (i_x old) = x_name x) by (unfold key in Kold; congruence).
    set (rest := X ++ map i_x (unlink (concat (table s)) old) ++ map c_x (cands s) ++ held s).
    assert (Pold : Permutation (concat (table s)) (old :: unlink (concat (table s)) old)) by (apply unlink_perm; [apply (b_ids _ (v_tb _ _ _ I))|exact Hold]).
    assert (Pu : Permutation (X ++ users s) (i_x old :: rest)).
    { unfold users, instances. rewrite Pold. cbn [map]. unfold rest. cbn [app]. symmetry. apply Permutation_middle. }
    assert (Q : Permutation (refs (x :: X) s1) (databases_of x ++ databases_of (i_x old) ++ flat_map databases_of rest)).
    { rewrite refs_cons. apply Permutation_app_head. unfold refs. change (users s1) with (users s). rewrite Pu. reflexivity. }
    destruct (swap_dbs x (i_x old) (flat_map databases_of rest) s1 F Fold (eq_sym Ety)) as (f2 & Esw & H2 & K2).
    { eapply objs_ok_perm; [exact Q|]. apply (r_objs _ _ (v_rf _ _ _ I1)). }
    match goal with |- context [match ?t with pair _ _ => _ end] => match type of t with (xlator * _)%type => replace t with (inherit x (i_x old), set_objs s1 f2) by (symmetry; exact Esw) end end. clear Esw.
    set (x' := inherit x (i_x old)) in *. destruct (inherit_fields x (i_x old)) as (Xns & Xnm & Xfl & Xgl & Xst). fold x' in Xns, Xnm, Xfl, Xgl, Xst.
    assert (F' : well_formed x') by (apply inherit_wf; auto).
    assert (Ety' : type_of x' = type_of x) by (unfold type_of; rewrite Xfl; reflexivity).
    apply in_bucket in Hold as Hb. destruct Hb as (h & Hb). destruct (b_bucket _ (v_tb _ _ _ I) h old Hb) as [Hh Eh].
    set (new := set_hash W {| i_id := i_id new0; i_x := x'; i_hash := i_hash old; i_ops := i_ops old |}).
    assert (Hnew : i_hash new = Some h) by (unfold new, set_hash, get_instance_hash; cbn; rewrite Hh; reflexivity).
    assert (Hgh : get_instance_hash W new = h) by (unfold get_instance_hash; rewrite Hnew; reflexivity).
    assert (Enf : nfi new = nfi old). { unfold nfi. change (i_x new) with x'. rewrite !is_netfilter_spec by assumption. unfold framework_of in *. rewrite Xfl, Efw. reflexivity. }
    rewrite Hgh. fold (nfi old). change (table (set_objs s1 f2)) with (table s). change (nf_list (set_objs s1 f2)) with (nf_list s).
    set (sb := with_table (set_objs s1 f2) _ _).
    fold (leftover (i_x old)). set (old' := {| i_id := i_id old; i_x := leftover (i_x old); i_hash := i_hash old; i_ops := None |}).
    (* the table without the old instance *)
    set (sa := with_table s (hash_del (table s) old) (filter (ne old) (nf_list s))).
    assert (Ta : tb sa) by (unfold sa; rewrite hash_del_filter; apply tb_filter; [apply I|reflexivity]).
    assert (Ca : concat (table sa) = unlink (concat (table s)) old) by (unfold sa; cbn [table with_table]; rewrite hash_del_filter; apply concat_filter).
    destruct (tb_add sa sb new h Ta) as [Tb Pb]; auto.
    { change (i_x new) with x'. rewrite Xns, Xnm, Ety', <- Ens, <- Ety, <- Enm. exact Eh. }
    { rewrite Ca. change (i_id new) with (next s). intros Hi. apply in_map_iff in Hi as (j & Ej & Hj). unfold unlink in Hj. apply filter_In in Hj as [Hj _]. apply (b_next _ (v_tb _ _ _ I)) in Hj. lia. }
    { cbn. lia. }
    { change (i_x new) with x'. assert (Kx : key x' = key (i_x old)) by (rewrite Kold; unfold key; rewrite Xns, Xnm, Ety'; reflexivity). rewrite Kx. unfold instances. rewrite Ca. intros Hi.
      pose proof (b_keys _ (v_tb _ _ _ I)) as Nk. unfold instances in Nk. apply (Permutation_NoDup (Permutation_map key (Permutation_map i_x Pold))) in Nk. cbn [map] in Nk. inversion Nk. contradiction. }
    { change (nfi new) with (nfi new). rewrite Enf. unfold sb. cbn [nf_list with_table sa]. rewrite <- (nf_unlink s old (v_tb _ _ _ I) Hold). destruct (nfi old); reflexivity. }
    { cbn. lia. }
    rewrite Ca in Pb.
    assert (Ib : inv [] (leftover (i_x old) :: X) sb).
    { split.
      - exact Tb.
      - destruct (v_hk _ _ _ I). cbn [app] in *. split; cbn [app]; auto.
        + change (hooks sb) with (hooks s). rewrite h_perm0. rewrite (perm_filter nfi _ _ Pb), (perm_filter nfi _ _ Pold). cbn [filter]. rewrite Enf. destruct (nfi old); [|reflexivity]. cbn [map].
          replace (hook new) with (hook old); [reflexivity|]. unfold hook, new, set_hash. cbn [i_x i_ops]. rewrite Xns, Ens. reflexivity.
        + intros j Hj Nj. apply (Permutation_in _ Pb) in Hj as [<-|Hj].
          * change (i_ops new) with (i_ops old). apply h_ops0; [exact Hold|]. rewrite <- Enf. exact Nj.
          * unfold unlink in Hj. apply filter_In in Hj as [Hj _]. apply h_ops0; auto.
        + intros k Hk. specialize (h_next0 k Hk). cbn. lia.
      - assert (Pr : Permutation (refs (leftover (i_x old) :: X) sb) (databases_of (leftover (i_x old)) ++ databases_of x' ++ flat_map databases_of rest)).
        { rewrite refs_cons. apply Permutation_app_head. unfold refs. rewrite (users_add s sb new _ Pb) by reflexivity. change (i_x new) with x'. change (databases_of x' ++ flat_map databases_of rest) with (flat_map databases_of (x' :: rest)).
          apply Permutation_flat_map. unfold rest. symmetry. apply Permutation_middle. }
        split; [|intros o Ho|].
        + eapply objs_ok_perm; [symmetry; exact Pr|exact H2].
        + change (next sb) with (next s1). apply (r_next _ _ (v_rf _ _ _ I1)). apply (Permutation_in _ Pr) in Ho. apply (objs_ok_alive _ _ o (r_objs _ _ (v_rf _ _ _ I1))).
          assert (Hk := K2 o Ho). apply (objs_ok_alive _ _ o H2) in Ho. destruct (f2 o) as [[? ?]|]; [|congruence]. cbn [option_map] in Hk. intros Hz. rewrite Hz in Hk. discriminate Hk.
        + change (bad_ref sb) with (bad_ref s). apply I.
      - destruct (v_cd _ _ _ I). split; auto. intros c Hc. specialize (c_next0 c Hc). cbn. lia. }
    destruct (destroy_new [] X old' sb Ib eq_refl) as (f3 & -> & I3 & K3). split; [exact I3|]. split; [exact Vn|]. split; [exact V6'|]. split; [right|].
    + exists old, new. split; [exact Hold|]. split; [exact Kold|]. split; [exact Efw|]. split.
      { intros Ty. rewrite Ty in E6. cbn in E6. destruct (prefix6_equals _ _); [reflexivity|discriminate]. }
      split; [reflexivity|]. split; [reflexivity|]. split; [exact Pb|reflexivity].
    + split; [|repeat split; reflexivity]. change (objs (set_objs sb f3)) with f3. change (refs X (set_objs sb f3)) with (refs X sb).
      assert (Pr : Permutation (refs X sb) (databases_of x' ++ flat_map databases_of rest)).
      { unfold refs. rewrite (users_add s sb new _ Pb) by reflexivity. change (i_x new) with x'. change (databases_of x' ++ flat_map databases_of rest) with (flat_map databases_of (x' :: rest)).
        apply Permutation_flat_map. unfold rest. symmetry. apply Permutation_middle. }
      eapply keep_trans; [|exact K3]. cbn [objs sb with_table set_objs]. eapply keep_trans; [|eapply keep_incl; [|exact K2]].
      * change (objs s1) with f1. eapply keep_incl; [|exact K1]. intros o Ho. apply (Permutation_in _ Pr) in Ho.
        assert (Ho2 : In o (databases_of (leftover (i_x old)) ++ databases_of x' ++ flat_map databases_of rest)) by (apply in_or_app; right; exact Ho).
        assert (Hk := K2 o Ho2). apply (objs_ok_alive _ _ o H2) in Ho2. assert (Ha : objs s1 o <> None) by (destruct (f2 o) as [[? ?]|]; [|congruence]; destruct (objs s1 o); [discriminate|cbn in Hk; discriminate]).
        apply (objs_ok_alive _ _ o (r_objs _ _ (v_rf _ _ _ I1))) in Ha. rewrite refs_cons in Ha. apply in_app_or in Ha as [Ha|Ha]; [apply L; exact Ha|exact Ha].
      * intros o Ho. apply in_or_app. right. apply (Permutation_in _ Pr). exact Ho.
  - pose proof (add_locked_spec [] X e new0 s1 I1 F eq_refl eq_refl) as HA.
    assert (N1 : ~ In (i_id new0) (map i_id (concat (table s1)))) by (apply (fresh_id s new0 (v_tb _ _ _ I) eq_refl)).
    assert (N2 : i_id new0 < next s1) by (cbn; lia).
    specialize (HA N1 N2 Fs). destruct (xlator_add_locked W e new0 s1) as [[|err] s2] eqn:El.
    + destruct HA as (I2 & (i & Ei & P) & Eo & Ec & Ehd & Ebc). split; [exact I2|]. split; [exact Vn|]. split; [exact V6'|]. split; [left; split; [exact Fs|exists i; auto]|].
      split; [|split; [exact Ec|split; [exact Ehd|exact Ebc]]]. rewrite Eo. change (objs s1) with f1. eapply keep_incl; [|exact K1]. intros o Ho.
      apply (objs_ok_alive _ _ o (r_objs _ _ (v_rf _ _ _ I2))) in Ho. rewrite Eo in Ho. apply (objs_ok_alive _ _ o (r_objs _ _ (v_rf _ _ _ I1))) in Ho. rewrite refs_cons in Ho. apply in_app_or in Ho as [Ho|Ho]; [apply L; exact Ho|exact Ho].
    + rewrite HA. destruct (destroy_new [] X new0 s1 I1 eq_refl) as (f & -> & I2 & K2). split; [exact I2|]. eapply grown_trans; [exact G1|]. apply grown_objs. exact K2.
Qed.

(** ** Clones *)

Lemma hold_inv : forall dl X i (s : st), inv dl X s -> In i (concat (table s)) -> 
  exists f, hold i s = with_held (set_objs s f) (i_x i :: held s) /\ inv dl X (hold i s) /\ keep (refs X s) (objs s) f.
Proof.
  intros dl X i s I Hi. assert (F : well_formed (i_x i)) by (apply (b_wf _ (v_tb _ _ _ I)); exact Hi).
  assert (L : incl (databases_of (i_x i)) (refs X s)).
  { intros o Ho. unfold refs. apply in_flat_map. exists (i_x i). split; [|exact Ho]. apply in_or_app. right. unfold users. apply in_or_app. left. apply in_map. exact Hi. }
  destruct (get_inv dl X (i_x i) s I (full_wf _ F) L) as (f & Eg & I1 & K). exists f. unfold hold. rewrite Eg. split; [reflexivity|]. split; [|exact K].
  destruct I1 as [T H R C]. split.
  - destruct T; split; auto.
  - destruct H; split; auto.
  - apply (rf_move (i_x i :: X) _ (set_objs s f)); auto; [|cbn; lia]. unfold users, instances. cbn [table cands held with_held set_objs app]. rewrite !app_assoc. apply Permutation_middle.
  - destruct C; split; auto. cbn. intros x [<-|Hx]; auto.
Qed.

Lemma put_held_inv : forall dl X k x (s : st), inv dl X s -> nth_error (held s) k = Some x ->
  exists f, xlator_put x (with_held s (firstn k (held s) ++ skipn (S k) (held s))) = with_held (set_objs s f) (firstn k (held s) ++ skipn (S k) (held s)) /\
    inv dl X (with_held (set_objs s f) (firstn k (held s) ++ skipn (S k) (held s))) /\
    Permutation (held s) (x :: firstn k (held s) ++ skipn (S k) (held s)) /\ keep (refs X (with_held s (firstn k (held s) ++ skipn (S k) (held s)))) (objs s) f.
Proof.
  intros dl X k x s I Hk. assert (P : Permutation (held s) (x :: firstn k (held s) ++ skipn (S k) (held s))).
  { apply nth_error_split in Hk as (l1 & l2 & El & Ek). rewrite El. subst k. rewrite firstn_app, Nat.sub_diag, firstn_all, firstn_O, app_nil_r.
    replace (skipn (S (length l1)) (l1 ++ x :: l2)) with l2; [symmetry; apply Permutation_middle|]. clear. induction l1; auto. }
  set (h := firstn k (held s) ++ skipn (S k) (held s)) in *.
  assert (I1 : inv dl (x :: X) (with_held s h)).
  { destruct I as [T H R C]. split.
    - destruct T; split; auto.
    - destruct H; split; auto.
    - apply (rf_move X _ s); auto; [|cbn; lia]. unfold users, instances. cbn [table cands held with_held app]. rewrite P at 1. rewrite !app_assoc. symmetry. apply Permutation_middle.
    - destruct C; split; auto. cbn. intros y Hy. apply c_held0. apply (Permutation_in _ (Permutation_sym P)). right. exact Hy. }
  destruct (put_inv _ _ _ _ I1) as (f & -> & I2 & K). exists f. split; [reflexivity|]. split; [exact I2|]. split; [exact P|exact K].
Qed.

(** ** The same objects *)

Lemma objs_same : forall f g L, objs_ok f L -> objs_ok g L -> keep L f g -> forall o, g o = f o.
Proof.
  intros f g L F G K o. pose proof (F o) as Fo. pose proof (G o) as Go. pose proof (objs_ok_alive _ _ o F) as A. pose proof (K o) as Ko.
  destruct (f o) as [[d n]|]; destruct (g o) as [[d' n']|]; try lia; [|reflexivity].
  destruct A as [A _]. specialize (Ko (A ltac:(discriminate))). cbn in Ko. inversion Ko. subst. destruct Fo as [-> _], Go as [-> _]. reflexivity.
Qed.

(** ** handle_global_update *)

Lemma xlator_find_spec : forall (s : st) ns flags n, tb s ->
  match xlator_find W s ns flags n with
  | (OK, Some i) => In i (concat (table s)) /\ key (i_x i) = (ns, flags mod 4, n) /\ Z.testbit flags (framework_of (i_x i) + 1) = true
  | (OK, None) => False
  | (Err err, _) => valid_name n -> (flags mod 4 = 1 \/ flags mod 4 = 2) -> err = ESRCH /\
      forall x, In x (instances s) -> key x = (ns, flags mod 4, n) -> Z.testbit flags (framework_of x + 1) = false
  end.
Proof.
  intros s ns flags n T. unfold xlator_find. pose proof (basic_spec n flags) as B. destruct (basic_validations n flags); [|intros V1 V2; destruct B as [_ B]; discriminate (B (conj V1 V2))].
  destruct B as [B _]. destruct (B eq_refl) as [V1 V2]. rewrite flags2xt_mod. pose proof (find_spec s ns (flags mod 4) n T V2) as Fs.
  destruct (find_instance W s ns (flags mod 4) n) as [i|].
  - destruct Fs as [Hi Ki]. pose proof (b_wf _ T i Hi) as F.
    assert (Q : (Z.land (x_flags (i_x i)) (flags2xf flags) =? 0) = negb (Z.testbit flags (framework_of (i_x i) + 1))).
    { rewrite flags2xf_mod. replace (Z.land (x_flags (i_x i)) (4 * (flags / 4 mod 4))) with (Z.land (4 * framework_of (i_x i)) (4 * (flags / 4 mod 4))).
      2:{ unfold framework_of. rewrite <- !flags2xf_mod. unfold flags2xf. rewrite <- Z.land_assoc, (Z.land_comm 12), <- Z.land_assoc. reflexivity. }
      destruct F as [F _]. assert (Hb : forall k, 0 <= k -> Z.testbit flags (k + 2) = Z.testbit (flags / 4) k) by (intros k Hk; change 4 with (2 ^ 2); rewrite Z.div_pow2_bits by lia; reflexivity).
      assert (Hm : forall k, 0 <= k < 2 -> Z.testbit (flags / 4) k = Z.testbit (flags / 4 mod 4) k) by (intros k Hk; rewrite <- (Z.mod_pow2_bits_low (flags / 4) 2 k) by lia; reflexivity).
      destruct F as [-> | ->]; [change (1 + 1) with (0 + 2)|change (2 + 1) with (1 + 2)]; rewrite Hb, Hm by lia; assert (0 <= flags / 4 mod 4 < 4) as R by (apply Z.mod_pos_bound; lia);
        assert (flags / 4 mod 4 = 0 \/ flags / 4 mod 4 = 1 \/ flags / 4 mod 4 = 2 \/ flags / 4 mod 4 = 3) as [-> |[-> |[-> | ->]]] by lia; reflexivity. }
    rewrite Q. destruct (Z.testbit flags (framework_of (i_x i) + 1)) eqn:Et; cbn [negb]; [auto|]. intros _ _. split; [reflexivity|]. intros x Hx Kx.
    assert (x = i_x i) as ->; [|exact Et]. eapply (nodup_map_inj key); [apply (b_keys _ T)|exact Hx|apply in_map; exact Hi|congruence].
  - intros _ _. split; [reflexivity|]. intros x Hx Kx. destruct Fs. rewrite <- Kx. apply in_map. exact Hx.
Qed.

Lemma inherit_self : forall x g, inherit (with_glob x g) x = with_glob x g.
Proof. intros x g. unfold inherit, with_glob. cbn. destruct (x_dbs x); reflexivity. Qed.

Lemma in_users : forall X (s : st) x, In x (X ++ users s) -> incl (databases_of x) (refs X s).
Proof. intros X s x Hx o Ho. unfold refs. apply in_flat_map. eauto. Qed.

Lemma lor_12 : forall xt, xt = 1 \/ xt = 2 -> Z.lor 12 xt mod 4 = xt /\ forall f, f = 1 \/ f = 2 -> Z.testbit (Z.lor 12 xt) (f + 1) = true.
Proof. intros xt [->| ->]; (split; [reflexivity|]); intros f [->| ->]; reflexivity. Qed.

Lemma global_spec : forall e xt n force msg (s : st), xt = 1 \/ xt = 2 -> inv [] [] s ->
  match handle_global_update W e xt n force msg s with
  | (OK, s') => inv [] [] s' /\ (exists i new m g, In i (concat (table s)) /\ key (i_x i) = (e_ns e, xt, iname n) /\ msg = Some m /\ global_update (x_glob (i_x i)) xt force m = (OK, g) /\
        i_x new = with_glob (i_x i) g /\ hooks s' = hooks s /\ Permutation (concat (table s')) (new :: unlink (concat (table s)) i) /\
        nf_list s' = (if nfi i then new :: unlink (nf_list s) i else nf_list s) /\ (xt = 2 -> set6 (pool6 g) = true)) /\
      (forall o, objs s' o = objs s o) /\ cands s' = cands s /\ held s' = held s /\ bad_cand s' = bad_cand s
  | (Err err, s') => inv [] [] s' /\ (forall o, objs s' o = objs s o) /\ table s' = table s /\ nf_list s' = nf_list s /\ cands s' = cands s /\ hooks s' = hooks s /\ held s' = held s /\ bad_cand s' = bad_cand s
  end.
Proof.
  intros e xt n force msg s Hx I. unfold handle_global_update. fold (iname n). destruct (lor_12 xt Hx) as [L1 L2]. pose proof (xlator_find_spec s (e_ns e) (Z.lor 12 xt) (iname n) (v_tb _ _ _ I)) as Fs. rewrite L1 in Fs.
  assert (Err0 : forall s', inv [] [] s' -> grown [] s s' -> (forall o, objs s' o = objs s o) /\ table s' = table s /\ nf_list s' = nf_list s /\ cands s' = cands s /\ hooks s' = hooks s /\ held s' = held s /\ bad_cand s' = bad_cand s).
  { intros s' I' (f & n' & -> & Hn & K). split; [|repeat split; reflexivity]. apply (objs_same (objs s) f (refs [] s)); [apply I|apply (r_objs _ _ (v_rf _ _ _ I'))|exact K]. }
  destruct (xlator_find W s (e_ns e) (Z.lor 12 xt) (iname n)) as [[|err] [i|]]; try (split; [exact I|]; apply Err0; [exact I|apply grown_refl]).
  destruct Fs as (Hi & Ki & _). assert (F : well_formed (i_x i)) by (apply (b_wf _ (v_tb _ _ _ I)); exact Hi).
  assert (Ux : incl (databases_of (i_x i)) (refs [] s)) by (apply in_users; cbn [app]; unfold users; apply in_or_app; left; apply in_map; exact Hi).
  destruct (get_inv [] [] (i_x i) s I (full_wf _ F) Ux) as (f1 & -> & I1 & K1). set (s1 := set_objs s f1) in *. assert (G1 : grown [] s s1) by (apply grown_objs; exact K1).
  assert (Fin : forall s2, inv [] [i_x i] s2 -> grown [i_x i] s1 s2 -> exists s3, xlator_put (i_x i) s2 = s3 /\ inv [] [] s3 /\ grown [] s s3).
  { intros s2 I2 G2. destruct (put_inv _ _ _ _ I2) as (f & Ep & I3 & K3). eexists. split; [exact Ep|]. split; [exact I3|]. eapply grown_trans; [exact G1|]. eapply grown_trans; [|apply grown_objs; exact K3].
    eapply grown_incl; [|exact G2]. intros o Ho. rewrite refs_cons. apply in_or_app. right. exact Ho. }
  destruct msg as [msg|].
  2:{ destruct (Fin s1 I1 (grown_refl _ _)) as (s3 & -> & I3 & G3). split; [exact I3|]. apply Err0; assumption. }
  destruct (global_update (x_glob (i_x i)) xt force msg) as [[|err] g] eqn:Eg.
  2:{ destruct (Fin s1 I1 (grown_refl _ _)) as (s3 & -> & I3 & G3). split; [exact I3|]. apply Err0; assumption. }
  fold (with_glob (i_x i) g). pose proof (replace_spec [i_x i] e (with_glob (i_x i) g) s1 I1) as R. specialize (R F).
  assert (Ux1 : incl (databases_of (with_glob (i_x i) g)) (refs [i_x i] s1)). { intros o Ho. change (databases_of (with_glob (i_x i) g)) with (databases_of (i_x i)) in Ho. rewrite refs_cons. apply in_or_app. left. exact Ho. }
  specialize (R Ux1). destruct (xlator_replace W e (with_glob (i_x i) g) s1) as [[|err] s2].
  2:{ destruct R as [I2 G2]. destruct (Fin s2 I2 G2) as (s3 & -> & I3 & G3). split; [exact I3|]. apply Err0; assumption. }
  destruct R as (I2 & Vn & V6 & R & K2 & Ec & Eh & Ebc).
  assert (Kg : key (with_glob (i_x i) g) = key (i_x i)) by reflexivity.
  destruct R as [(R & _)|(old & new & Hold & Kold & Efw & E6 & En & Ehk & P & Enf)].
  { destruct R. rewrite Kg. apply in_map, in_map. exact Hi. }
  rewrite Kg in Kold. change (table s1) with (table s) in *. change (nf_list s1) with (nf_list s) in *. change (hooks s1) with (hooks s) in *.
  assert (old = i) as ->.
  { pose proof (b_keys _ (v_tb _ _ _ I)) as N. unfold instances in N. rewrite map_map in N. eapply (nodup_map_inj (fun i => key (i_x i))); [exact N|auto..]. }
  rewrite inherit_self in En.
  destruct (put_inv _ _ _ _ I2) as (f3 & -> & I3 & K3). split; [exact I3|]. split; [|split; [|repeat split; auto]].
  - exists i, new, msg, g. split; [exact Hi|]. split; [exact Ki|]. split; [reflexivity|]. split; [exact Eg|]. split; [exact En|]. split; [exact Ehk|]. split; [exact P|]. split; [exact Enf|].
    intros ->. apply V6. change (type_of (i_x i) = 2). unfold key in Ki. congruence.
  - cbn [objs set_objs]. assert (Pold : Permutation (concat (table s)) (i :: unlink (concat (table s)) i)) by (apply unlink_perm; [apply (b_ids _ (v_tb _ _ _ I))|exact Hi]).
    assert (Q : forall o, cnt (refs [] s2) o = cnt (refs [] s) o).
    { intros o. apply cnt_perm. unfold refs. cbn [app]. unfold users, instances. rewrite Ec, Eh. set (u := unlink (concat (table s)) i) in *. rewrite P, Pold. cbn [map app flat_map]. rewrite En. reflexivity. }
    apply (objs_same (objs s) f3 (refs [] s)); [apply I| |].
    + eapply objs_ok_cnt; [|apply (r_objs _ _ (v_rf _ _ _ I3))]. exact Q.
    + assert (In1 : incl (refs [] s) (refs [] s2)). { intros o Ho. rewrite cnt_in in *. rewrite Q. exact Ho. }
      eapply keep_trans; [exact K1|]. eapply keep_trans; [|eapply keep_incl; [|exact K3]]; [|exact In1].
      eapply keep_incl; [|exact K2]. intros o Ho. rewrite refs_cons. apply in_or_app. right. apply In1. exact Ho.
Qed.

(** ** Candidates *)

Definition cne (c : candidate) : candidate -> bool := fun d => negb (c_id d =? c_id c).
Lemma cands_perm : forall l c, NoDup (map c_id l) -> In c l -> Permutation l (c :: filter (cne c) l).
Proof.
  intros l c. induction l as [|d l IH]; cbn; intros N Hc; [tauto|]. inversion N; subst. unfold cne at 1. destruct Hc as [->|Hc].
  - rewrite Z.eqb_refl. cbn [negb]. apply perm_skip. rewrite filter_all; [reflexivity|].
    intros k Hk. unfold cne. destruct (Z.eqb_spec (c_id k) (c_id c)) as [Ek|]; [|reflexivity]. destruct H1. rewrite <- Ek. apply in_map. exact Hk.
  - destruct (Z.eqb_spec (c_id d) (c_id c)) as [Ed|]; [destruct H1; rewrite Ed; apply in_map; exact Hc|]. cbn [negb]. rewrite (IH H2 Hc) at 1. apply perm_swap.
Qed.
Lemma users_cand : forall (s s' : st) c l, table s' = table s -> held s' = held s -> Permutation (cands s) (c :: l) -> cands s' = l -> Permutation (users s) (c_x c :: users s').
Proof.
  intros s s' c l Et Eh P Ec. unfold users, instances. rewrite Et, Eh, Ec, P. cbn [map app]. symmetry. apply Permutation_middle.
Qed.
Lemma destroy_cand : forall X c (s : st), inv [] X s -> In c (cands s) ->
  exists f, candidate_destroy c s = with_cands (set_objs s f) (filter (cne c) (cands s)) /\ inv [] X (candidate_destroy c s) /\ keep (refs X (candidate_destroy c s)) (objs s) f.
Proof.
  intros X c s I Hc. pose proof (cands_perm _ c (c_ids _ (v_cd _ _ _ I)) Hc) as P. set (cs := filter (cne c) (cands s)) in *.
  assert (I1 : inv [] (c_x c :: X) (with_cands s cs)).
  { destruct I as [T H R C]. split.
    - destruct T; split; auto.
    - destruct H; split; auto.
    - apply (rf_move X _ s); auto; [|cbn; lia]. rewrite (users_cand s (with_cands s cs) c cs) by auto. symmetry. apply Permutation_middle.
    - destruct C. assert (Hin : forall d, In d cs -> In d (cands s)) by (intros d Hd; apply filter_In in Hd; tauto). split; cbn; auto. apply nodup_map_filter. exact c_ids0. }
  destruct (put_inv _ _ _ _ I1) as (f & Ep & I2 & K). exists f.
  assert (Eq : candidate_destroy c s = with_cands (set_objs s f) cs).
  { unfold candidate_destroy. destruct (put_spec (c_x c) (refs X (with_cands s cs)) s) as (f' & E' & _).
    - eapply objs_ok_perm; [|apply (r_objs _ _ (v_rf _ _ _ I))]. unfold refs. change (databases_of (c_x c) ++ flat_map databases_of (X ++ users (with_cands s cs))) with (flat_map databases_of (c_x c :: X ++ users (with_cands s cs))).
      apply Permutation_flat_map. rewrite (users_cand s (with_cands s cs) c cs) by auto. symmetry. apply Permutation_middle.
    - rewrite E'. change (with_cands (set_objs s f') cs = with_cands (set_objs s f) cs). do 2 f_equal.
      (* the same objects *)
      assert (Hput : forall (a b : st), objs a = objs b -> objs (xlator_put (c_x c) a) = objs (xlator_put (c_x c) b)).
      { assert (Hk : forall o (a b : st), objs a = objs b -> objs (kref_put o a) = objs (kref_put o b)).
        { intros o a b Eab. unfold kref_put. rewrite Eab. destruct (objs b o) as [[? ?]|]; cbn; congruence. }
        intros a b Eab. unfold xlator_put. destruct (x_dbs (c_x c)) as [? ?|? [?|] [?|]]; repeat apply Hk; exact Eab. }
      pose proof (Hput s (with_cands s cs) eq_refl) as Hp. rewrite E' in Hp. rewrite Ep in Hp. exact Hp. }
  rewrite Eq. split; [reflexivity|]. split; [exact I2|exact K].
Qed.

(** Another value for a candidate, with the same databases *)
Lemma set_cand_eq : forall (c : candidate) l, (forall d, In d l -> c_id d = c_id c -> databases_of (c_x d) = databases_of (c_x c)) ->
  flat_map databases_of (map c_x (map (fun d => if c_id d =? c_id c then c else d) l)) = flat_map databases_of (map c_x l).
Proof.
  intros c l. induction l as [|d l IH]; cbn [map flat_map In]; intros H; [reflexivity|]. rewrite IH by auto. apply (f_equal2 (@app Z)); [|reflexivity]. destruct (Z.eqb_spec (c_id d) (c_id c)) as [Ed|]; [|reflexivity]. symmetry. apply H; auto.
Qed.
Lemma set_cand_refs : forall X c (s : st), (forall d, In d (cands s) -> c_id d = c_id c -> databases_of (c_x d) = databases_of (c_x c)) -> refs X (set_cand c s) = refs X s.
Proof.
  intros X c s H. unfold refs, users, instances, set_cand. cbn [table cands held with_cands]. rewrite !flat_map_app, set_cand_eq by exact H. reflexivity.
Qed.
Lemma cand_same : forall (s : st) c d, cd s -> In c (cands s) -> In d (cands s) -> c_id d = c_id c -> d = c.
Proof. intros s c d C Hc Hd Eq. eapply (nodup_map_inj c_id); [apply (c_ids _ C)|auto..]. Qed.
Lemma set_cand_inv : forall X c c' (s : st), inv [] X s -> In c (cands s) -> c_id c' = c_id c -> databases_of (c_x c') = databases_of (c_x c) -> well_formed (c_x c') ->
  inv [] X (set_cand c' s) /\ refs X (set_cand c' s) = refs X s /\ In c' (cands (set_cand c' s)).
Proof.
  intros X c c' s I Hc Ei Ed F. assert (Same : forall d, In d (cands s) -> c_id d = c_id c' -> databases_of (c_x d) = databases_of (c_x c')).
  { intros d Hd Eid. rewrite (cand_same s c d (v_cd _ _ _ I) Hc Hd) by congruence. congruence. }
  pose proof (set_cand_refs X c' s Same) as Er. split; [|split; [exact Er|]].
  - destruct I as [T H R C]. split.
    + destruct T; split; auto.
    + destruct H; split; auto.
    + destruct R; split; rewrite ?Er; auto.
    + destruct C. split; cbn [cands set_cand with_cands held next]; auto.
      * intros d Hd. apply in_map_iff in Hd as (d0 & <- & Hd). destruct (c_id d0 =? c_id c'); auto.
      * rewrite map_map. erewrite map_ext; [exact c_ids0|]. intros d. cbn. destruct (Z.eqb_spec (c_id d) (c_id c')); congruence.
      * intros d Hd. apply in_map_iff in Hd as (d0 & <- & Hd). specialize (c_next0 d0 Hd). destruct (Z.eqb_spec (c_id d0) (c_id c')) as [E0|]; [rewrite <- E0|]; exact c_next0.
  - cbn. apply in_map_iff. exists c. rewrite <- Ei, Z.eqb_refl. auto.
Qed.
Lemma set_cand_set : forall c c' (s : st), c_id c' = c_id c -> set_cand c' (set_cand c s) = set_cand c' s.
Proof.
  intros c c' s Ei. unfold set_cand, with_cands. cbn [table nf_list cands objs hooks held next bad_ref bad_cand]. f_equal. rewrite map_map. apply map_ext. intros d.
  destruct (Z.eqb_spec (c_id d) (c_id c)) as [Ed|Ed]; [rewrite <- Ei, Z.eqb_refl; destruct (Z.eqb_spec (c_id d) (c_id c')); congruence|reflexivity].
Qed.
Lemma set_cand_self : forall c (s : st), cd s -> In c (cands s) -> set_cand c s = s.
Proof.
  intros c s C Hc. unfold set_cand, with_cands. replace (map (fun d => if c_id d =? c_id c then c else d) (cands s)) with (cands s); [destruct s; reflexivity|].
  rewrite <- (map_id (cands s)) at 1. apply map_ext_in. intros d Hd. destruct (Z.eqb_spec (c_id d) (c_id c)) as [Ed|]; [|reflexivity]. apply (cand_same s c d C); auto.
Qed.

(** ** Entries *)

Lemma entries_spec : forall X k x force o l (s : st), inv [] X s -> In o (refs X s) ->
  exists f d d', snd (add_entries W k x force o l s) = set_objs s f /\ inv [] X (set_objs s f) /\ (forall o', o' <> o -> f o' = objs s o') /\
    contents s o = Some d /\ option_map fst (f o) = Some d' /\ add_all W k x force l d = (fst (add_entries W k x force o l s), d').
Proof.
  intros X k x force o l. induction l as [|en l IH]; intros s I Ho; pose proof (proj2 (objs_ok_alive _ _ o (r_objs _ _ (v_rf _ _ _ I))) Ho) as Al; cbn [add_entries add_all]; destruct (objs s o) as [[d n]|] eqn:Eo; try congruence.
  - exists (objs s), d, d. cbn [fst snd]. assert (Es : set_objs s (objs s) = s) by (destruct s; reflexivity). rewrite Es. split; [reflexivity|]. split; [exact I|]. split; [auto|]. unfold contents. rewrite Eo. auto.
  - destruct (db_add W k x force en d) as [r d1] eqn:Ea. rewrite with_objs_false.
    assert (I1 : inv [] X (set_objs s (upd (objs s) o (Some (d1, n))))).
    { rewrite <- set_next_same. eapply inv_objs; [exact I|lia| |apply I]. intros o'. pose proof (r_objs _ _ (v_rf _ _ _ I) o') as H. unfold upd. destruct (Z.eqb_spec o' o) as [->|]; [|exact H]. rewrite Eo in H. exact H. }
    destruct r as [|err].
    + destruct (IH _ I1 Ho) as (f & d0 & d' & E1 & I2 & Fr & Ed & Ed' & Ea'). rewrite E1. exists f, d, d'. split; [reflexivity|]. split; [exact I2|]. split; [|split; [unfold contents; rewrite Eo; reflexivity|split; [exact Ed'|]]].
      * intros o' No. rewrite Fr by exact No. cbn. unfold upd. destruct (Z.eqb_spec o' o); [contradiction|reflexivity].
      * rewrite <- Ea', Ea. f_equal. unfold contents in Ed. cbn in Ed. unfold upd in Ed. rewrite Z.eqb_refl in Ed. cbn in Ed. congruence.
    + cbn [fst snd]. eexists _, d, d1. split; [reflexivity|]. split; [exact I1|]. split; [|split; [unfold contents; rewrite Eo; reflexivity|split; [unfold upd; rewrite Z.eqb_refl; reflexivity|rewrite Ea; reflexivity]]].
      intros o' No. unfold upd. destruct (Z.eqb_spec o' o); [contradiction|reflexivity].
Qed.

Lemma section_spec : forall X k c force l (s : st), inv [] X s -> well_formed (c_x c) -> incl (databases_of (c_x c)) (refs X s) ->
  exists f, snd (opt_entries W k c force l s) = set_objs s f /\ inv [] X (set_objs s f) /\ (forall o, ~ In o (databases_of (c_x c)) -> f o = objs s o) /\
    (fst (opt_entries W k c force l s) = OK -> section W k (c_x c) force l (contents s) (contents (set_objs s f))).
Proof.
  intros X k c force l s I F L. assert (Es : set_objs s (objs s) = s) by (destruct s; reflexivity).
  destruct l as [l|]; cbn [opt_entries].
  2:{ exists (objs s). rewrite Es. split; [reflexivity|]. split; [exact I|]. split; [auto|]. intros _ o. reflexivity. }
  unfold handle_entries. 
  assert (Hyes : forall o, db_of k (c_x c) = Some o -> In o (databases_of (c_x c)) -> exists f, snd (add_entries W k (c_x c) force o l s) = set_objs s f /\ inv [] X (set_objs s f) /\ (forall o, ~ In o (databases_of (c_x c)) -> f o = objs s o) /\
    (fst (add_entries W k (c_x c) force o l s) = OK -> section W k (c_x c) force (Some l) (contents s) (contents (set_objs s f)))).
  { intros o Hd Ho. destruct (entries_spec X k (c_x c) force o l s I (L o Ho)) as (f & d & d' & E1 & I1 & Fr & Ed & Ed' & Ea). exists f. split; [exact E1|]. split; [exact I1|]. split.
    - intros o' No. apply Fr. intros ->. contradiction.
    - intros Ok. rewrite Ok in Ea. exists o, d, d'. split; [exact Hd|]. split; [exact Ed|]. split; [exact Ea|]. split; [exact Ed'|]. intros o' No. unfold contents. cbn. rewrite Fr by exact No. reflexivity. }
  assert (Hno : exists f, s = set_objs s f /\ inv [] X (set_objs s f) /\ (forall o, ~ In o (databases_of (c_x c)) -> f o = objs s o) /\ (Err EINVAL = OK -> section W k (c_x c) force (Some l) (contents s) (contents (set_objs s f)))).
  { exists (objs s). rewrite Es. split; [reflexivity|]. split; [exact I|]. split; [auto|discriminate]. }
  destruct F as [_ F]. unfold databases_of, db_of in *. destruct k; destruct (x_dbs (c_x c)) as [ea de|p [b|] [j|]] eqn:Ex; try exact Hno; try (destruct F as (? & ? & ?); congruence);
    (apply Hyes; [reflexivity|cbn; tauto]).
Qed.

Lemma contents_ext : forall (s s' : st) o, objs s' o = objs s o -> contents s' o = contents s o.
Proof. intros s s' o H. unfold contents. rewrite H. reflexivity. Qed.

(** The parts of a message before END *)
Definition upload (m : message) (c : candidate) (s : st) : (rc * candidate) * st :=
  let '((r, c), s) := match m_globals m with None => ((OK, c), s) | Some g => handle_global c (m_force m) g s end in
  match r with Err err => ((Err err, c), s) | OK =>
  match opt_entries W Denylist4 c (m_force m) (m_bl4 m) s with (Err err, s) => ((Err err, c), s) | (OK, s) =>
  match opt_entries W Eamt c (m_force m) (m_eamt m) s with (Err err, s) => ((Err err, c), s) | (OK, s) =>
  match opt_entries W Pool4 c (m_force m) (m_pool4 m) s with (Err err, s) => ((Err err, c), s) | (OK, s) =>
  match opt_entries W Bib c (m_force m) (m_bib m) s with (Err err, s) => ((Err err, c), s) | (OK, s) => ((OK, c), s)
  end end end end end.
Lemma serve_upload : forall e m c (s : st), serve_message W e m c s =
  let '((r, c), s) := upload m c s in
  match r with Err err => ((Err err, c), s) | OK => if m_end m then let (r, s) := commit W e c s in ((r, c), s) else ((OK, c), s) end.
Proof.
  intros e m c s. unfold serve_message, upload. destruct (match m_globals m with None => ((OK, c), s) | Some g => handle_global c (m_force m) g s end) as [[[|err] c1] s1]; [|reflexivity].
  destruct (opt_entries W Denylist4 c1 (m_force m) (m_bl4 m) s1) as [[|] s2]; [|reflexivity].
  destruct (opt_entries W Eamt c1 (m_force m) (m_eamt m) s2) as [[|] s3]; [|reflexivity].
  destruct (opt_entries W Pool4 c1 (m_force m) (m_pool4 m) s3) as [[|] s4]; [|reflexivity].
  destruct (opt_entries W Bib c1 (m_force m) (m_bib m) s4) as [[|] s5]; reflexivity.
Qed.

Lemma upload_spec : forall m c (s : st), inv [] [] s -> In c (cands s) ->
  let '((r, c'), s') := upload m c s in
  exists f, s' = set_objs (set_cand c' s) f /\ inv [] [] s' /\ In c' (cands s') /\ refs [] s' = refs [] s /\
    c_id c' = c_id c /\ c_pid c' = c_pid c /\ c_time c' = c_time c /\ well_formed (c_x c') /\
    (exists g, c_x c' = with_glob (c_x c) g /\ (r = OK -> match m_globals m with None => g = x_glob (c_x c) | Some l => global_update (x_glob (c_x c)) (type_of (c_x c)) (m_force m) l = (OK, g) end)) /\
    (forall o, ~ In o (databases_of (c_x c)) -> f o = objs s o) /\
    (r = OK -> uploaded W m (c_x c) (c_x c') (contents s) (contents s')).
Proof.
  intros m c s I Hc. assert (Fc : well_formed (c_x c)) by (apply (c_wf _ (v_cd _ _ _ I)); exact Hc). unfold upload.
  set (start := match m_globals m with None => ((OK, c), s) | Some g => handle_global c (m_force m) g s end).
  assert (S1 : let '((r, c1), s1) := start in s1 = set_cand c1 s /\ c_id c1 = c_id c /\ c_pid c1 = c_pid c /\ c_time c1 = c_time c /\ exists g, c_x c1 = with_glob (c_x c) g /\
    (r = OK -> match m_globals m with None => g = x_glob (c_x c) | Some l => global_update (x_glob (c_x c)) (type_of (c_x c)) (m_force m) l = (OK, g) end)).
  { unfold start. destruct (m_globals m) as [l|].
    - unfold handle_global. rewrite flags2xt_mod. fold (type_of (c_x c)). destruct (global_update (x_glob (c_x c)) (type_of (c_x c)) (m_force m) l) as [r g]. cbn. repeat (split; [reflexivity|]). exists g. split; [reflexivity|]. intros ->. reflexivity.
    - split; [symmetry; apply set_cand_self; [apply I|exact Hc]|]. repeat (split; [reflexivity|]). exists (x_glob (c_x c)). split; [destruct (c_x c); reflexivity|]. intros _. reflexivity. }
  destruct start as [[r c1] s1]. destruct S1 as (-> & Eid & Epid & Etm & g & Ex & Eg).
  assert (Ed : databases_of (c_x c1) = databases_of (c_x c)) by (rewrite Ex; reflexivity).
  assert (F1 : well_formed (c_x c1)) by (rewrite Ex; exact Fc).
  destruct (set_cand_inv [] c c1 s I Hc Eid Ed F1) as (I1 & R1 & H1).
  assert (L1 : incl (databases_of (c_x c1)) (refs [] (set_cand c1 s))). { rewrite Ed, R1. apply in_users. cbn [app]. unfold users. apply in_or_app. right. apply in_or_app. left. apply in_map. exact Hc. }
  set (s1 := set_cand c1 s) in *.
  assert (Es1 : set_objs s1 (objs s) = s1) by (unfold s1, set_cand; destruct s; reflexivity).
  (* every way out *)
  assert (Out : forall (r' : rc) f, inv [] [] (set_objs s1 f) -> (forall o, ~ In o (databases_of (c_x c)) -> f o = objs s o) -> (r' = OK -> r = OK) -> (r' = OK -> uploaded W m (c_x c) (c_x c1) (contents s) (contents (set_objs s1 f))) ->
    exists f0, set_objs s1 f = set_objs s1 f0 /\ inv [] [] (set_objs s1 f) /\ In c1 (cands (set_objs s1 f)) /\ refs [] (set_objs s1 f) = refs [] s /\ c_id c1 = c_id c /\ c_pid c1 = c_pid c /\ c_time c1 = c_time c /\ well_formed (c_x c1) /\
    (exists g, c_x c1 = with_glob (c_x c) g /\ (r' = OK -> match m_globals m with None => g = x_glob (c_x c) | Some l => global_update (x_glob (c_x c)) (type_of (c_x c)) (m_force m) l = (OK, g) end)) /\
    (forall o, ~ In o (databases_of (c_x c)) -> f0 o = objs s o) /\ (r' = OK -> uploaded W m (c_x c) (c_x c1) (contents s) (contents (set_objs s1 f)))).
  { intros r' f If Ff Hr Hu. exists f. split; [reflexivity|]. split; [exact If|]. split; [exact H1|]. split; [exact R1|]. split; [exact Eid|]. split; [exact Epid|]. split; [exact Etm|]. split; [exact F1|]. split; [exists g; split; [exact Ex|intros Ok; apply Eg; auto]|]. auto. }
  destruct r as [|err].
  2:{ assert (Q := Out (Err err) (objs s)). rewrite Es1 in Q. apply Q; try discriminate; auto. }
  assert (Sset : settings_section m (c_x c) (c_x c1)).
  { rewrite Ex. unfold settings_section, with_glob. cbn [x_ns x_name x_flags x_stats x_dbs x_glob]. repeat (split; [reflexivity|]). specialize (Eg eq_refl). destruct (m_globals m); auto. }
  assert (Fr0 : forall o, ~ In o (databases_of (c_x c)) -> objs s1 o = objs s o) by reflexivity.
  destruct (section_spec [] Denylist4 c1 (m_force m) (m_bl4 m) s1 I1 F1 L1) as (f1 & Q1 & J1 & G1 & U1). destruct (opt_entries W Denylist4 c1 (m_force m) (m_bl4 m) s1) as [r1 s2]. cbn [fst snd] in Q1, U1. subst s2.
  assert (Fr1 : forall o, ~ In o (databases_of (c_x c)) -> f1 o = objs s o) by (intros o Ho; rewrite G1 by (rewrite Ed; exact Ho); apply Fr0; exact Ho).
  destruct r1 as [|err]; [|apply Out; auto; discriminate].
  destruct (section_spec [] Eamt c1 (m_force m) (m_eamt m) (set_objs s1 f1) J1 F1 L1) as (f2 & Q2 & J2 & G2 & U2). destruct (opt_entries W Eamt c1 (m_force m) (m_eamt m) (set_objs s1 f1)) as [r2 s3]. cbn [fst snd] in Q2, U2. subst s3. rewrite set_set in *.
  assert (Fr2 : forall o, ~ In o (databases_of (c_x c)) -> f2 o = objs s o) by (intros o Ho; rewrite G2 by (rewrite Ed; exact Ho); apply Fr1; exact Ho).
  destruct r2 as [|err]; [|apply Out; auto; discriminate].
  destruct (section_spec [] Pool4 c1 (m_force m) (m_pool4 m) (set_objs s1 f2) J2 F1 L1) as (f3 & Q3 & J3 & G3 & U3). destruct (opt_entries W Pool4 c1 (m_force m) (m_pool4 m) (set_objs s1 f2)) as [r3 s4]. cbn [fst snd] in Q3, U3. subst s4. rewrite set_set in *.
  assert (Fr3 : forall o, ~ In o (databases_of (c_x c)) -> f3 o = objs s o) by (intros o Ho; rewrite G3 by (rewrite Ed; exact Ho); apply Fr2; exact Ho).
  destruct r3 as [|err]; [|apply Out; auto; discriminate].
  destruct (section_spec [] Bib c1 (m_force m) (m_bib m) (set_objs s1 f3) J3 F1 L1) as (f4 & Q4 & J4 & G4 & U4). destruct (opt_entries W Bib c1 (m_force m) (m_bib m) (set_objs s1 f3)) as [r4 s5]. cbn [fst snd] in Q4, U4. subst s5. rewrite set_set in *.
  assert (Fr4 : forall o, ~ In o (databases_of (c_x c)) -> f4 o = objs s o) by (intros o Ho; rewrite G4 by (rewrite Ed; exact Ho); apply Fr3; exact Ho).
  destruct r4 as [|err]; [|apply Out; auto; discriminate].
  apply Out; auto. intros _. split; [exact Sset|]. exists (contents (set_objs s1 f1)), (contents (set_objs s1 f2)), (contents (set_objs s1 f3)). auto.
Qed.

(** ** The atomic configuration *)

Lemma search_spec : forall X e n l (s : st), inv [] X s -> incl l (cands s) -> NoDup (map c_id l) ->
  let (oc, s') := search e n l s in
  oc = find (addressed e n) l /\ exists f p, s' = with_cands (set_objs s f) (filter p (cands s)) /\ inv [] X s' /\ keep (refs X s') (objs s) f /\
    (forall c, In c (cands s) -> p c = false -> expired e c /\ In c l) /\ (forall c, oc = Some c -> In c (cands s')) /\ (forall c, oc = Some c -> p c = true).
Proof.
  intros X e n l. induction l as [|c l IH]; intros s I L N; cbn [search find].
  - split; [reflexivity|]. exists (objs s), (fun _ => true). rewrite filter_all by reflexivity. assert (Es : with_cands (set_objs s (objs s)) (cands s) = s) by (destruct s; reflexivity). rewrite Es. split; [reflexivity|]. split; [exact I|]. split; [apply keep_refl|]. repeat split; discriminate.
  - unfold addressed at 1. fold (addressed e n c). replace ((x_ns (c_x c) =? e_ns e) && name_eqb (x_name (c_x c)) n && (c_pid c =? e_pid e)) with (addressed e n c) by reflexivity.
    assert (Hc : In c (cands s)) by (apply L; left; reflexivity). destruct (addressed e n c) eqn:Ea.
    + split; [reflexivity|]. exists (objs s), (fun _ => true). rewrite filter_all by reflexivity. assert (Es : with_cands (set_objs s (objs s)) (cands s) = s) by (destruct s; reflexivity). rewrite Es. split; [reflexivity|]. split; [exact I|]. split; [apply keep_refl|].
      split; [discriminate|]. split; [|reflexivity]. intros d [= <-]. exact Hc.
    + cbn [map] in N. inversion N; subst. unfold candidate_expire_maybe. destruct (time_after (e_now e) (c_time c + e_timeout e)) eqn:Et.
      * destruct (destroy_cand X c s I Hc) as (f1 & E1 & I1 & K1). specialize (IH (candidate_destroy c s) I1). rewrite E1 in IH. cbn [cands with_cands] in IH. 
        assert (L1 : incl l (filter (cne c) (cands s))). { intros d Hd. apply filter_In. split; [apply L; right; exact Hd|]. unfold cne. destruct (Z.eqb_spec (c_id d) (c_id c)) as [Ed|]; [|reflexivity]. destruct H1. rewrite <- Ed. apply in_map. exact Hd. }
        specialize (IH L1 H2). rewrite E1. destruct (search e n l (with_cands (set_objs s f1) (filter (cne c) (cands s)))) as [oc s']. destruct IH as (Eo & f & p & Es' & I' & K' & Hp & Ho & Hp').
        split; [exact Eo|]. exists f, (fun d => cne c d && p d). cbn [cands with_cands set_objs] in Es', Ho.
        assert (Ef : filter p (filter (cne c) (cands s)) = filter (fun d => cne c d && p d) (cands s)). { clear. induction (cands s) as [|d l IH]; cbn; [reflexivity|]. destruct (cne c d); cbn; destruct (p d); rewrite ?IH; reflexivity. }
        rewrite Ef in Es'. split; [exact Es'|]. split; [exact I'|]. split.
        { eapply keep_trans; [|exact K']. eapply keep_incl; [|rewrite E1 in K1; exact K1].
          rewrite Es'. intros o Ho'. unfold refs in *. apply in_flat_map in Ho' as (y & Hy & Hd). apply in_flat_map. exists y. split; [|exact Hd]. unfold users, instances in *. cbn [table held cands with_cands set_objs] in *. rewrite !in_app_iff in *. destruct Hy as [?|[?|[Hy|?]]]; auto. right; right; left. apply in_map_iff in Hy as (d & <- & Hd'). apply in_map. apply filter_In in Hd'. apply filter_In. destruct (cne c d); cbn in *; tauto. }
        split; [|split; [exact Ho|]].
        { intros d Hd Hf. apply andb_false_iff in Hf as [Hf|Hf].
          - unfold cne in Hf. apply negb_false_iff, Z.eqb_eq in Hf. assert (d = c) by (apply (cand_same s c d); auto; apply I). subst d. split; [exact Et|left; reflexivity].
          - destruct (cne c d) eqn:En; [|unfold cne in En; apply negb_false_iff, Z.eqb_eq in En; assert (d = c) by (apply (cand_same s c d); auto; apply I); subst d; split; [exact Et|left; reflexivity]].
            destruct (Hp d) as [? ?]; [apply filter_In; auto|exact Hf|]. split; [assumption|right; assumption]. }
        { intros d Hd. rewrite (Hp' d Hd), andb_true_r. specialize (Ho d Hd). rewrite Es' in Ho. cbn in Ho. apply filter_In in Ho as [_ Ho]. apply andb_true_iff in Ho as [Ho _]. exact Ho. }
      * specialize (IH s I ltac:(intros d Hd; apply L; right; exact Hd) H2). destruct (search e n l s) as [oc s']. destruct IH as (Eo & f & p & Es' & I' & K' & Hp & Ho & Hp'). split; [exact Eo|]. exists f, p. split; [exact Es'|]. split; [exact I'|]. split; [exact K'|].
        split; [|auto]. intros d Hd Hf. destruct (Hp d Hd Hf). split; [assumption|right; assumption].
Qed.

Lemma handle_init_spec : forall e xf n xt (s : st), inv [] [] s ->
  match handle_init W e xf n xt s with
  | ((OK, Some c), s') => inv [] [] s' /\ (exists f k, s' = with_cands (with_next (set_objs s f) k) (c :: cands s) /\ next s <= k /\ keep (refs [] s) (objs s) f) /\
      well_formed (c_x c) /\ x_ns (c_x c) = e_ns e /\ x_name (c_x c) = n /\ x_flags (c_x c) = Z.lor xf xt /\ globals_init (e_mem e) (type_of (c_x c)) None = (OK, x_glob (c_x c)) /\
      (forall o, In o (databases_of (c_x c)) -> next s <= o) /\ NoDup (databases_of (c_x c)) /\ new_dbs s' (c_x c) /\ c_time c = e_now e /\ c_pid c = e_pid e /\ next s <= c_id c
  | ((OK, None), _) => False
  | ((Err _, _), s') => inv [] [] s' /\ grown [] s s'
  end.
Proof.
  intros e xf n xt s I. unfold handle_init. destruct (negb (e_alloc e 0)); [split; [exact I|apply grown_refl]|].
  pose proof (init_spec [] [] e (e_ns e) n (Z.lor xf xt) None s I) as P. destruct (xlator_init W e (e_ns e) n (Z.lor xf xt) None s) as [[[|err] [x|]] s1]; try exact P; [|contradiction].
  destruct P as (I1 & (f & k & -> & Hk & K) & F & P1 & P2 & P3 & P4 & P5 & P6 & P7). cbn [c_x c_time c_pid c_id]. split.
  - destruct I1 as [T H R C]. split.
    + destruct T; split; auto. intros i Hi. specialize (b_next0 i Hi). cbn in *. lia.
    + destruct H; split; auto. intros h Hh. specialize (h_next0 h Hh). cbn in *. lia.
    + apply (rf_move [x] _ (with_next (set_objs s f) k)); auto; [|cbn; lia]. unfold users, instances. cbn [app table cands held with_cands with_next set_objs map c_x]. apply Permutation_middle.
    + destruct C. split; cbn in *.
      * intros d [<-|Hd]; auto.
      * constructor; auto. intros Hd. apply in_map_iff in Hd as (d & Ed & Hd). specialize (c_next0 d Hd). lia.
      * intros d [<-|Hd]; [cbn; lia|]. specialize (c_next0 d Hd). lia.
      * exact c_held0.
  - split; [exists f, (k + 1); split; [reflexivity|]; split; [lia|exact K]|]. repeat (split; [assumption|]). split; [reflexivity|]. split; [reflexivity|]. cbn. lia.
Qed.

Lemma commit_spec : forall e c (s : st), inv [] [] s -> In c (cands s) ->
  match commit W e c s with
  | (OK, s') => inv [] [] s' /\ valid_name (x_name (c_x c)) /\ (type_of (c_x c) = 2 -> set6 (pool6 (x_glob (c_x c))) = true) /\
      ((~ In (key (c_x c)) (map key (instances s)) /\ (exists i, i_x i = c_x c /\ Permutation (concat (table s')) (i :: concat (table s)))) \/
       (exists old new, In old (concat (table s)) /\ key (i_x old) = key (c_x c) /\ framework_of (i_x old) = framework_of (c_x c) /\
         (type_of (c_x c) = 2 -> prefix6_equals (pre6 (pool6 (x_glob (i_x old)))) (pre6 (pool6 (x_glob (c_x c)))) = true) /\
         i_x new = inherit (c_x c) (i_x old) /\ hooks s' = hooks s /\ Permutation (concat (table s')) (new :: unlink (concat (table s)) old) /\
         nf_list s' = (if nfi old then new :: unlink (nf_list s) old else nf_list s))) /\
      keep (refs [] s') (objs s) (objs s') /\ cands s' = filter (cne c) (cands s) /\ held s' = held s /\ bad_cand s' = bad_cand s
  | (Err _, s') => inv [] [] s' /\ grown [] s s'
  end.
Proof.
  intros e c s I Hc. unfold commit.
  assert (F : well_formed (c_x c)) by (apply (c_wf _ (v_cd _ _ _ I)); exact Hc).
  assert (L : incl (databases_of (c_x c)) (refs [] s)). { apply in_users. cbn [app]. unfold users. apply in_or_app. right. apply in_or_app. left. apply in_map. exact Hc. }
  pose proof (replace_spec [] e (c_x c) s I F L) as P. destruct (xlator_replace W e (c_x c) s) as [[|err] s1]; [|exact P].
  destruct P as (I1 & P1 & P2 & P3 & P4 & P5 & P6 & P7). assert (Hc1 : In c (cands s1)) by (rewrite P5; exact Hc).
  destruct (destroy_cand [] c s1 I1 Hc1) as (f & E1 & I2 & K). split; [exact I2|]. split; [exact P1|]. split; [exact P2|]. split; [|split; [|split; [|split]]].
  - rewrite E1. cbn [table hooks nf_list with_cands set_objs]. exact P3.
  - eapply keep_trans; [|replace (objs (candidate_destroy c s1)) with f by (rewrite E1; reflexivity); exact K]. eapply keep_incl; [|exact P4].
    rewrite E1. intros o Ho. unfold refs in *. apply in_flat_map in Ho as (y & Hy & Hd). apply in_flat_map. exists y. split; [|exact Hd]. unfold users, instances in *. cbn [app table held cands with_cands set_objs] in *. rewrite !in_app_iff in *.
    destruct Hy as [?|[Hy|?]]; auto. right; left. apply in_map_iff in Hy as (d & <- & Hd'). apply in_map. apply filter_In in Hd'. tauto.
  - rewrite E1. cbn. rewrite P5. reflexivity.
  - rewrite E1. cbn. exact P6.
  - rewrite E1. cbn. exact P7.
Qed.

(** ** Candidates share nothing *)

Lemma excl_le : forall (s s' : st), inv [] [] s' -> (forall o, cnt (refs [] s') o <= cnt (refs [] s) o) ->
  (forall c', In c' (cands s') -> exists c, In c (cands s) /\ databases_of (c_x c') = databases_of (c_x c)) -> excl [] s -> excl [] s'.
Proof.
  intros s s' I Hle Hc X c' o Hc' Ho. destruct (Hc c' Hc') as (c & Hcs & Ed). rewrite Ed in Ho. specialize (X c o Hcs Ho). specialize (Hle o).
  assert (1 <= cnt (refs [] s') o); [|lia]. apply cnt_in. rewrite <- Ed in Ho. revert o Ho X Hle. intros o Ho _ _. apply (in_users [] s' (c_x c')); [|exact Ho]. cbn [app]. unfold users. apply in_or_app. right. apply in_or_app. left. apply in_map. exact Hc'.
Qed.
Lemma cnt_users : forall (s : st) o, cnt (refs [] s) o = cnt (flat_map databases_of (instances s)) o + cnt (flat_map databases_of (map c_x (cands s))) o + cnt (flat_map databases_of (held s)) o.
Proof. intros s o. unfold refs, users. cbn [app]. rewrite !flat_map_app, !cnt_app. lia. Qed.
Lemma cnt_perm_users : forall l m o, Permutation l m -> cnt (flat_map databases_of l) o = cnt (flat_map databases_of m) o.
Proof. intros l m o P. apply cnt_perm. apply Permutation_flat_map. exact P. Qed.
Lemma cnt_flat_cons : forall x l o, cnt (flat_map databases_of (x :: l)) o = cnt (databases_of x) o + cnt (flat_map databases_of l) o.
Proof. intros. cbn [flat_map]. apply cnt_app. Qed.
Lemma cnt_filter_le : forall {A} (p : A -> bool) (f : A -> xlator) l o, cnt (flat_map databases_of (map f (filter p l))) o <= cnt (flat_map databases_of (map f l)) o.
Proof.
  intros A p f l o. induction l as [|a l IH]; cbn [filter map]; [lia|]. destruct (p a); cbn [map]; rewrite !cnt_flat_cons; [lia|]. pose proof (cnt_nonneg (databases_of (f a)) o). lia.
Qed.
(** What instances and clones use *)
Definition live (s : st) : list Z := flat_map databases_of (instances s ++ held s).
Lemma excl_disj : forall (s : st) c o, excl [] s -> cd s -> In c (cands s) -> In o (databases_of (c_x c)) ->
  ~ In o (live s) /\ (forall d, In d (cands s) -> In o (databases_of (c_x d)) -> d = c).
Proof.
  intros s c o X C Hc Ho. pose proof (X c o Hc Ho) as X1. pose proof (cands_perm _ c (c_ids _ C) Hc) as P. rewrite cnt_users in X1. 
  rewrite (cnt_perm_users _ _ o (Permutation_map c_x P)) in X1. cbn [map] in X1. rewrite cnt_flat_cons in X1. assert (1 <= cnt (databases_of (c_x c)) o) by (apply cnt_in; exact Ho).
  pose proof (cnt_nonneg (flat_map databases_of (instances s)) o). pose proof (cnt_nonneg (flat_map databases_of (held s)) o). pose proof (cnt_nonneg (flat_map databases_of (map c_x (filter (cne c) (cands s)))) o).
  split.
  - unfold live. rewrite flat_map_app. apply cnt_notin. rewrite cnt_app. lia.
  - intros d Hd Hod. destruct (cne c d) eqn:En.
    + exfalso. assert (1 <= cnt (flat_map databases_of (map c_x (filter (cne c) (cands s)))) o); [|lia]. apply cnt_in. apply in_flat_map. exists (c_x d). split; [apply in_map; apply filter_In; auto|exact Hod].
    + unfold cne in En. apply negb_false_iff, Z.eqb_eq in En. apply (cand_same s c d C); auto.
Qed.
Lemma live_refs : forall (s : st), incl (live s) (refs [] s).
Proof.
  intros s o Ho. unfold live, refs in *. apply in_flat_map in Ho as (x & Hx & Ho). apply in_flat_map. exists x. split; [|exact Ho]. cbn [app]. unfold users. rewrite !in_app_iff in *. tauto.
Qed.
Lemma cand_refs : forall (s : st) c, In c (cands s) -> incl (databases_of (c_x c)) (refs [] s).
Proof. intros s c Hc. apply in_users. cbn [app]. unfold users. apply in_or_app. right. apply in_or_app. left. apply in_map. exact Hc. Qed.

Lemma cnt_inherit : forall x old o, cnt (databases_of (inherit x old)) o <= cnt (databases_of x) o + cnt (databases_of old) o.
Proof.
  intros x old o. pose proof (cnt_nonneg (databases_of old) o) as H0. unfold inherit. destruct (x_dbs x) as [ea de|p b j] eqn:Ex; [lia|]. destruct (x_dbs old) as [ea de|p' b' j'] eqn:Eo; [lia|].
  unfold databases_of. cbn [x_dbs x_stats]. rewrite Ex, Eo, !cnt_cons, !cnt_app.
  repeat match goal with |- context [cnt ?l o] => lazymatch goal with H : 0 <= cnt l o |- _ => fail | _ => pose proof (cnt_nonneg l o) end end. destruct (p' =? o), (x_stats old =? o); lia.
Qed.

Lemma excl_commit : forall e c (s : st), inv [] [] s -> In c (cands s) -> excl [] s -> excl [] (snd (commit W e c s)).
Proof.
  intros e c s I Hc X. pose proof (commit_spec e c s I Hc) as P. destruct (commit W e c s) as [[|err] s']; cbn [snd].
  2:{ destruct P as (I' & G). pose proof (grown_refs [] [] _ _ G) as Er. destruct G as (f & k & -> & _ & _). apply (excl_le s); auto; [rewrite Er; lia|]. intros c' Hc'. exists c'. auto. }
  destruct P as (I' & _ & _ & P & _ & Ec & Eh & _). apply (excl_le s); auto.
  2:{ intros c' Hc'. rewrite Ec in Hc'. apply filter_In in Hc' as [Hc' _]. exists c'. auto. }
  intros o. rewrite !cnt_users, Ec, Eh. rewrite (cnt_perm_users (map c_x (cands s)) _ o (Permutation_map c_x (cands_perm _ c (c_ids _ (v_cd _ _ _ I)) Hc))). cbn [map]. rewrite cnt_flat_cons.
  destruct P as [(_ & i & Ei & Pi)|(old & new & Hold & _ & _ & _ & En & _ & Pn & _)].
  - rewrite (cnt_perm_users (instances s') _ o (instances_perm s s' _ Pi)). cbn [map]. rewrite cnt_flat_cons, Ei. unfold instances. lia.
  - rewrite (cnt_perm_users (instances s') _ o (instances_perm s s' _ Pn)). unfold instances. rewrite (cnt_perm_users (map i_x (concat (table s))) _ o (Permutation_map i_x (unlink_perm _ old (b_ids _ (v_tb _ _ _ I)) Hold))).
    cbn [map]. rewrite !cnt_flat_cons, En. pose proof (cnt_inherit (c_x c) (i_x old) o). lia.
Qed.

Definition good (s : st) : Prop := inv [] [] s /\ excl [] s.
Definition same_tables (s s' : st) : Prop := table s' = table s /\ nf_list s' = nf_list s /\ hooks s' = hooks s /\ held s' = held s /\ bad_cand s' = bad_cand s.
Definition others (k : Z) (s s' : st) : Prop := forall d, In d (cands s') -> c_id d <> k -> In d (cands s) /\ keep (databases_of (c_x d)) (objs s) (objs s').
Lemma same_trans : forall (s1 s2 s3 : st), same_tables s1 s2 -> same_tables s2 s3 -> same_tables s1 s3.
Proof. unfold same_tables. intuition congruence. Qed.
Lemma same_refl : forall (s : st), same_tables s s. Proof. unfold same_tables. auto. Qed.
Lemma live_same : forall (s s' : st), same_tables s s' -> live s' = live s.
Proof. intros s s' (Et & _ & _ & Eh & _). unfold live, instances. rewrite Et, Eh. reflexivity. Qed.
Lemma others_trans : forall k (s1 s2 s3 : st), others k s1 s2 -> others k s2 s3 -> others k s1 s3.
Proof. intros k s1 s2 s3 H1 H2 d Hd Hk. destruct (H2 d Hd Hk) as [Hd2 K2]. destruct (H1 d Hd2 Hk) as [Hd1 K1]. split; [exact Hd1|]. eapply keep_trans; eauto. Qed.
Lemma others_refl : forall k (s : st), others k s s. Proof. intros k s d Hd _. split; [exact Hd|apply keep_refl]. Qed.

Lemma destroy_good : forall c (s : st), good s -> In c (cands s) -> let s' := candidate_destroy c s in
  good s' /\ same_tables s s' /\ keep (live s) (objs s) (objs s') /\ (forall d, In d (cands s') <-> In d (cands s) /\ c_id d <> c_id c) /\ others (c_id c) s s'.
Proof.
  intros c s [I X] Hc s'. destruct (destroy_cand [] c s I Hc) as (f & E1 & I1 & K). fold s' in E1, I1, K.
  assert (S : same_tables s s') by (rewrite E1; unfold same_tables; cbn; auto).
  assert (Hin : forall d, In d (cands s') <-> In d (cands s) /\ c_id d <> c_id c). { intros d. rewrite E1. cbn. rewrite filter_In. unfold cne. destruct (Z.eqb_spec (c_id d) (c_id c)); cbn; intuition congruence. }
  assert (Eo : objs s' = f) by (rewrite E1; reflexivity). rewrite <- Eo in K.
  split; [split; [exact I1|]|split; [exact S|split; [|split; [exact Hin|]]]].
  - apply (excl_le s); auto.
    + intros o. rewrite !cnt_users, E1. cbn [cands with_cands set_objs held]. pose proof (cnt_filter_le (cne c) c_x (cands s) o). unfold instances. cbn [table with_cands set_objs]. lia.
    + intros d Hd. exists d. split; [apply Hin; exact Hd|reflexivity].
  - eapply keep_incl; [|exact K]. rewrite <- (live_same s s' S). apply live_refs.
  - intros d Hd _. split; [apply Hin; exact Hd|]. eapply keep_incl; [|exact K]. apply cand_refs. exact Hd.
Qed.

Lemma in_set_cand : forall c' (s : st) d, In d (cands (set_cand c' s)) -> d = c' \/ (In d (cands s) /\ c_id d <> c_id c').
Proof. intros c' s d Hd. cbn in Hd. apply in_map_iff in Hd as (d0 & <- & Hd). destruct (Z.eqb_spec (c_id d0) (c_id c')); auto. Qed.
Lemma set_cand_in : forall c' (s : st) d, In d (cands s) -> c_id d <> c_id c' -> In d (cands (set_cand c' s)).
Proof. intros c' s d Hd Hn. cbn. apply in_map_iff. exists d. split; [|exact Hd]. destruct (Z.eqb_spec (c_id d) (c_id c')); congruence. Qed.

Lemma upload_good : forall m c (s : st), good s -> In c (cands s) ->
  let '((r, c'), s') := upload m c s in
  good s' /\ In c' (cands s') /\ same_tables s s' /\ keep (live s) (objs s) (objs s') /\ others (c_id c) s s' /\ (forall d, In d (cands s) -> c_id d <> c_id c -> In d (cands s')) /\
  c_id c' = c_id c /\ c_pid c' = c_pid c /\ c_time c' = c_time c /\
  (exists g, c_x c' = with_glob (c_x c) g /\ (r = OK -> match m_globals m with None => g = x_glob (c_x c) | Some l => global_update (x_glob (c_x c)) (type_of (c_x c)) (m_force m) l = (OK, g) end)) /\
  (r = OK -> uploaded W m (c_x c) (c_x c') (contents s) (contents s')).
Proof.
  intros m c s [I X] Hc. pose proof (upload_spec m c s I Hc) as P. destruct (upload m c s) as [[r c'] s']. destruct P as (f & Es & I1 & Hc1 & R1 & Ei & Ep & Et & F & (g & Ex & Eg) & Fr & U).
  assert (Ed : databases_of (c_x c') = databases_of (c_x c)) by (rewrite Ex; reflexivity).
  assert (Hcs : forall d, In d (cands s') -> d = c' \/ (In d (cands s) /\ c_id d <> c_id c)). { intros d Hd. rewrite Es in Hd. cbn [cands set_objs] in Hd. apply in_set_cand in Hd. rewrite Ei in Hd. exact Hd. }
  split; [split; [exact I1|]|split; [exact Hc1|split; [|split; [|split; [|split; [|split; [exact Ei|split; [exact Ep|split; [exact Et|split; [exists g; auto|exact U]]]]]]]]]].
  - apply (excl_le s); auto; [rewrite R1; lia|]. intros d Hd. destruct (Hcs d Hd) as [->|[Hd' _]]; [exists c; auto|exists d; auto].
  - rewrite Es. unfold same_tables. cbn. auto.
  - intros o Ho. rewrite Es. cbn. rewrite Fr; [reflexivity|]. intros Hoc. destruct (excl_disj s c o X (v_cd _ _ _ I) Hc Hoc) as [H _]. contradiction.
  - intros d Hd Hk. destruct (Hcs d Hd) as [->|[Hd' _]]; [congruence|]. split; [exact Hd'|]. intros o Ho. rewrite Es. cbn. rewrite Fr; [reflexivity|].
    intros Hoc. destruct (excl_disj s c o X (v_cd _ _ _ I) Hc Hoc) as [_ H]. apply Hk. f_equal. apply H; auto.
  - intros d Hd Hk. rewrite Es. change (In d (cands (set_cand c' s))). apply set_cand_in; [exact Hd|congruence].
Qed.

Lemma new_dbs_initial : forall (s : st) x, new_dbs s x -> initial W (contents s) x. Proof. intros s x H. exact H. Qed.

Definition begin (e : env) (m : message (E := E)) (s : st) : (rc * option candidate) * st :=
  match m_init m with
  | Some xf => handle_init W e xf (m_name m) (m_xt m) s
  | None => match search e (m_name m) (cands s) s with
            | (Some c, s) => ((OK, Some c), s)
            | (None, s) => ((Err ESRCH, None), s)
            end
  end.
Lemma grown_good : forall (s s' : st), good s -> inv [] [] s' -> grown [] s s' -> good s' /\ same_tables s s' /\ keep (refs [] s) (objs s) (objs s') /\ cands s' = cands s.
Proof.
  intros s s' [I X] I' G. pose proof (grown_refs [] [] _ _ G) as Er. destruct G as (f & k & -> & Hk & K). split; [split; [exact I'|]|split; [unfold same_tables; cbn; auto|split; [exact K|reflexivity]]].
  apply (excl_le s); auto; [rewrite Er; lia|]. intros d Hd. exists d. auto.
Qed.
Lemma begin_spec : forall e m (s : st), good s ->
  match begin e m s with
  | ((OK, Some c), s1) => good s1 /\ In c (cands s1) /\ same_tables s s1 /\ keep (live s) (objs s) (objs s1) /\ others (c_id c) s s1 /\ (forall d, In d (cands s) -> c_id d <> c_id c -> In d (cands s1) \/ expired e d) /\
      x_ns (c_x c) = e_ns e /\ x_name (c_x c) = m_name m /\ c_pid c = e_pid e /\ begun W e m s c (contents s1) /\ (m_init m = None -> In c (cands s))
  | ((OK, None), _) => False
  | ((Err _, _), s1) => good s1 /\ same_tables s s1 /\ keep (live s) (objs s) (objs s1) /\ (forall k, others k s s1) /\ (forall d, In d (cands s) -> In d (cands s1) \/ expired e d)
  end.
Proof.
  intros e m s G. destruct G as [I X]. unfold begin, begun. destruct (m_init m) as [xf|].
  - pose proof (handle_init_spec e xf (m_name m) (m_xt m) s I) as P. destruct (handle_init W e xf (m_name m) (m_xt m) s) as [[[|err] [c|]] s1]; try contradiction.
    2,3: destruct P as (I1 & Gr); destruct (grown_good s s1 (conj I X) I1 Gr) as (G1 & S1 & K1 & C1); split; [exact G1|]; split; [exact S1|]; split; [eapply keep_incl; [apply live_refs|exact K1]|]; split;
      [intros k d Hd _; rewrite C1 in Hd; split; [exact Hd|]; eapply keep_incl; [apply cand_refs; exact Hd|exact K1]|intros d Hd; left; rewrite C1; exact Hd].
    destruct P as (I1 & (f & k & Es & Hk & K) & F & P1 & P2 & P3 & P4 & P5 & P6 & P7 & P8 & P9 & P10).
    assert (Fresh : forall o, In o (databases_of (c_x c)) -> ~ In o (refs [] s)). { intros o Ho Hr. apply (r_next _ _ (v_rf _ _ _ I)) in Hr. specialize (P5 o Ho). lia. }
    assert (Hid : ~ In (c_id c) (map c_id (cands s))). { intros H. apply in_map_iff in H as (d & Ed & Hd). pose proof (c_next _ (v_cd _ _ _ I) d Hd). lia. }
    assert (Cs : cands s1 = c :: cands s) by (rewrite Es; reflexivity).
    split; [split; [exact I1|]|split; [rewrite Cs; left; reflexivity|split; [rewrite Es; unfold same_tables; cbn; auto|split; [|split; [|split; [|split; [exact P1|split; [exact P2|split; [exact P9|split; [|discriminate]]]]]]]]]].
    + assert (Er : forall o, cnt (refs [] s1) o = cnt (databases_of (c_x c)) o + cnt (refs [] s) o). { intros o. rewrite !cnt_users, Cs, Es. cbn [held with_cands with_next set_objs map]. rewrite cnt_flat_cons. unfold instances. cbn [table with_cands with_next set_objs]. lia. }
      intros d o Hd Ho. rewrite Er. rewrite Cs in Hd. destruct Hd as [<-|Hd].
      * rewrite (proj1 (cnt_notin _ _) (Fresh o Ho)). unfold cnt. rewrite (proj1 (NoDup_count_occ' Z.eq_dec _) P6 o Ho). reflexivity.
      * assert (Hn : ~ In o (databases_of (c_x c))) by (intros H; apply (Fresh o H); apply (cand_refs s d Hd); exact Ho). rewrite (proj1 (cnt_notin _ _) Hn), (X d o Hd Ho). reflexivity.
    + eapply keep_incl; [apply live_refs|]. rewrite Es. exact K.
    + intros d Hd Hk'. rewrite Cs in Hd. destruct Hd as [<-|Hd]; [congruence|]. split; [exact Hd|]. eapply keep_incl; [apply cand_refs; exact Hd|]. rewrite Es. exact K.
    + intros d Hd _. left. rewrite Cs. right. exact Hd.
    + split; [exact Hid|]. split; [exact P9|]. split; [exact P1|]. split; [exact P2|]. split; [exact P3|]. split; [exact P4|]. split; [|split; [exact P6|apply new_dbs_initial; exact P7]].
      intros o Ho Ha. apply (Fresh o Ho). apply (objs_ok_alive _ _ o (r_objs _ _ (v_rf _ _ _ I))). exact Ha.
  - pose proof (search_spec [] e (m_name m) (cands s) s I (fun d H => H) (c_ids _ (v_cd _ _ _ I))) as P. destruct (search e (m_name m) (cands s) s) as [oc s1]. destruct P as (Eo & f & p & Es & I1 & K & Hp & Ho & Hpt).
    assert (S1 : same_tables s s1) by (rewrite Es; unfold same_tables; cbn; auto).
    assert (Cs : cands s1 = filter p (cands s)) by (rewrite Es; reflexivity). assert (Eob : objs s1 = f) by (rewrite Es; reflexivity). rewrite <- Eob in K.
    assert (G1 : good s1). { split; [exact I1|]. apply (excl_le s); auto.
      - intros o. rewrite !cnt_users, Cs, Es. cbn [held with_cands set_objs]. unfold instances. cbn [table with_cands set_objs]. pose proof (cnt_filter_le p c_x (cands s) o). lia.
      - intros d Hd. rewrite Cs in Hd. apply filter_In in Hd. exists d. tauto. }
    assert (K1 : keep (live s) (objs s) (objs s1)) by (eapply keep_incl; [|exact K]; rewrite <- (live_same s s1 S1); apply live_refs).
    assert (O1 : forall k, others k s s1). { intros k d Hd _. split; [rewrite Cs in Hd; apply filter_In in Hd; tauto|]. eapply keep_incl; [|exact K]. apply cand_refs. exact Hd. }
    assert (Ex : forall d, In d (cands s) -> In d (cands s1) \/ expired e d). { intros d Hd. rewrite Cs. destruct (p d) eqn:Ep; [left; apply filter_In; auto|right]. apply (Hp d Hd Ep). }
    destruct oc as [c|]; [|auto 6].
    specialize (Ho c eq_refl). symmetry in Eo. pose proof (find_some _ _ Eo) as [Hin Ha]. unfold addressed in Ha. apply andb_true_iff in Ha as [Ha Ha3]. apply andb_true_iff in Ha as [Ha1 Ha2]. apply Z.eqb_eq in Ha1, Ha3. apply name_eqb_spec in Ha2.
    split; [exact G1|]. split; [exact Ho|]. split; [exact S1|]. split; [exact K1|]. split; [apply O1|]. split; [intros d Hd _; apply Ex; exact Hd|]. split; [exact Ha1|]. split; [exact Ha2|]. split; [exact Ha3|]. split; [|auto].
    split; [exact Eo|]. intros o Hoc. unfold contents. apply K. apply (cand_refs s1 c Ho). exact Hoc.
Qed.

Lemma replaced_of : forall x (s s' : st), tb s ->
  (~ In (key x) (map key (instances s)) /\ (exists i, i_x i = x /\ Permutation (concat (table s')) (i :: concat (table s)))) \/
  (exists old new, In old (concat (table s)) /\ key (i_x old) = key x /\ framework_of (i_x old) = framework_of x /\
     (type_of x = 2 -> prefix6_equals (pre6 (pool6 (x_glob (i_x old)))) (pre6 (pool6 (x_glob x))) = true) /\
     i_x new = inherit x (i_x old) /\ hooks s' = hooks s /\ Permutation (concat (table s')) (new :: unlink (concat (table s)) old) /\
     nf_list s' = (if nfi old then new :: unlink (nf_list s) old else nf_list s)) -> replaced x s s'.
Proof.
  intros x s s' T [(Hn & i & Ei & P)|(old & new & Ho & Hk & Hf & Hp & En & _ & P & _)].
  - left. split; [exact Hn|]. rewrite (instances_perm s s' _ P). cbn. rewrite Ei. reflexivity.
  - right. exists (i_x old), (map i_x (unlink (concat (table s)) old)). split; [unfold instances; rewrite (unlink_perm _ old (b_ids _ T) Ho) at 1; reflexivity|]. split; [exact Hk|]. split; [exact Hf|]. split; [exact Hp|].
    rewrite (instances_perm s s' _ P). cbn. rewrite En. reflexivity.
Qed.

Lemma atomic_spec : forall e m (s : st), good s ->
  let (r, s') := atomconfig_add W e m s in
  good s' /\ held s' = held s /\ (r <> OK \/ m_end m = false -> same_tables s s' /\ keep (live s) (objs s) (objs s')) /\
  match r with
  | Err _ => (forall k, others k s s') /\ (forall d, In d (cands s) -> In d (cands s') \/ expired e d \/ (m_init m = None /\ find (addressed e (m_name m)) (cands s) = Some d))
  | OK => valid_name (m_name m) /\ exists c c' f g, begun W e m s c f /\ well_formed (c_x c) /\ uploaded W m (c_x c) (c_x c') f g /\ c_id c' = c_id c /\ c_pid c' = c_pid c /\
      others (c_id c) s s' /\ (forall d, In d (cands s) -> c_id d <> c_id c -> In d (cands s') \/ expired e d) /\
      (forall o, In o (databases_of (c_x c')) -> In o (refs [] s') -> contents s' o = g o) /\
      keep (filter (fun o => existsb (Z.eqb o) (live s)) (refs [] s')) (objs s) (objs s') /\
      if m_end m then ~ In (c_id c) (map c_id (cands s')) /\ bad_cand s' = true /\ replaced (c_x c') s s' /\ (type_of (c_x c') = 2 -> set6 (pool6 (x_glob (c_x c'))) = true)
      else In (Cand (c_id c) (c_x c') (e_now e) (c_pid c)) (cands s')
  end.
Proof.
  intros e m s G. unfold atomconfig_add. destruct (iname_validate (m_name m)) as [|err] eqn:En.
  2:{ split; [exact G|]. split; [reflexivity|]. split; [intros _; split; [apply same_refl|apply keep_refl]|]. split; [intros; apply others_refl|auto]. }
  fold (begin e m s). pose proof (begin_spec e m s G) as B. destruct (begin e m s) as [[[|err] [c|]] s1]; try contradiction.
  2,3: destruct B as (G1 & S1 & K1 & O1 & X1); split; [exact G1|]; split; [apply S1|]; split; [auto|]; split; [exact O1|]; intros d Hd; destruct (X1 d Hd); auto.
  destruct B as (G1 & Hc & S1 & K1 & O1 & X1 & N1 & N2 & N3 & B & Hci). rewrite serve_upload.
  pose proof (upload_good m c s1 G1 Hc) as U. destruct (upload m c s1) as [[r c'] s2]. destruct U as (G2 & Hc' & S2 & K2 & O2 & X2 & Ei & Ep & Et & (g & Ex & Eg) & U).
  assert (Ed : databases_of (c_x c') = databases_of (c_x c)) by (rewrite Ex; reflexivity).
  assert (S12 : same_tables s s2) by (eapply same_trans; eauto). assert (K12 : keep (live s) (objs s) (objs s2)) by (eapply keep_trans; [exact K1|]; rewrite <- (live_same s s1 S1); exact K2).
  assert (O12 : others (c_id c) s s2) by (eapply others_trans; eauto).
  assert (X12 : forall d, In d (cands s) -> c_id d <> c_id c -> In d (cands s2) \/ expired e d). { intros d Hd Hn. destruct (X1 d Hd Hn) as [H|H]; [left; apply X2; auto|right; exact H]. }
  (* failure: the candidate goes *)
  assert (Fail : forall s3, good s3 -> In c' (cands s3) -> same_tables s s3 -> keep (live s) (objs s) (objs s3) -> others (c_id c) s s3 -> (forall d, In d (cands s) -> c_id d <> c_id c -> In d (cands s3) \/ expired e d) ->
     let s' := candidate_destroy c' s3 in good s' /\ held s' = held s /\ same_tables s s' /\ keep (live s) (objs s) (objs s') /\ (forall k, others k s s') /\
     (forall d, In d (cands s) -> In d (cands s') \/ expired e d \/ (m_init m = None /\ find (addressed e (m_name m)) (cands s) = Some d))).
  { intros s3 G3 H3 S3 K3 O3 X3 s'. destruct (destroy_good c' s3 G3 H3) as (G4 & S4 & K4 & I4 & O4). fold s' in G4, S4, K4, I4, O4. split; [exact G4|]. split; [rewrite (proj1 (proj2 (proj2 (proj2 S4)))); apply S3|].
    split; [eapply same_trans; eauto|]. split; [eapply keep_trans; [exact K3|]; rewrite <- (live_same s s3 S3); exact K4|]. split.
    - intros k d Hd _. assert (Hn : c_id d <> c_id c') by (apply I4; exact Hd). destruct (O4 d Hd Hn) as [Hd3 Kd]. destruct (O3 d Hd3) as [Hd0 Kd0]; [congruence|]. split; [exact Hd0|]. eapply keep_trans; eauto.
    - intros d Hd. destruct (Z.eq_dec (c_id d) (c_id c)) as [E0|E0].
      + right. right. unfold begun in B. destruct (m_init m) as [xf|].
        * destruct B as [B _]. destruct B. rewrite <- E0. apply in_map. exact Hd.
        * split; [reflexivity|]. destruct B as [B _]. assert (d = c); [|congruence]. apply (cand_same s c d (v_cd _ _ _ (proj1 G))); auto.
      + destruct (X3 d Hd E0) as [H|H]; [left; apply I4; split; [exact H|congruence]|auto]. }
  destruct r as [|err].
  2:{ destruct (Fail s2 G2 Hc' S12 K12 O12 X12) as (F1 & F2 & F3 & F4 & F5 & F6). auto 10. }
  specialize (U eq_refl). assert (Kl : forall s3, keep (refs [] s3) (objs s2) (objs s3) -> keep (filter (fun o => existsb (Z.eqb o) (live s)) (refs [] s3)) (objs s) (objs s3)).
  { intros s3 K3 o Ho. apply filter_In in Ho as [Ho Hl]. apply existsb_exists in Hl as (o' & Hl & Eo). apply Z.eqb_eq in Eo. subst o'. rewrite (K3 o Ho). apply K12. exact Hl. }
  destruct (m_end m).
  - pose proof (commit_spec e c' s2 (proj1 G2) Hc') as P. pose proof (excl_commit e c' s2 (proj1 G2) Hc' (proj2 G2)) as X3. destruct (commit W e c' s2) as [[|err] s3]; cbn [snd] in X3.
    + destruct P as (I3 & V3 & P6 & P & K3 & C3 & H3 & B3).
      assert (Eb : existsb (fun d => c_id d =? c_id c') (cands s3) = false). { apply not_true_iff_false. intros Hx. apply existsb_exists in Hx as (d & Hd & Ed'). rewrite C3 in Hd. apply filter_In in Hd as [_ Hd]. unfold cne in Hd. rewrite Ed' in Hd. discriminate. }
      rewrite Eb. split; [|split; [|split; [intros [?|?]; [congruence|discriminate]|]]].
      * split; [|exact X3]. destruct I3 as [T H R C]. split; [destruct T|destruct H|destruct R|destruct C]; split; auto.
      * cbn. rewrite H3. apply S12.
      * split; [apply iname_spec; exact En|]. exists c, c', (contents s1), (contents s2). split; [exact B|]. split; [apply (c_wf _ (v_cd _ _ _ (proj1 G1))); exact Hc|]. split; [exact U|]. split; [exact Ei|]. split; [exact Ep|]. split; [|split; [|split; [|split; [|split; [|split; [|split]]]]]].
        -- intros d Hd Hn. cbn [cands objs cand_touched] in Hd |- *. assert (Hd2 : In d (cands s2)) by (rewrite C3 in Hd; apply filter_In in Hd; tauto). destruct (O12 d Hd2 Hn) as [Hd0 Kd]. split; [exact Hd0|]. eapply keep_trans; [exact Kd|]. eapply keep_incl; [|exact K3]. apply cand_refs. exact Hd.
        -- intros d Hd Hn. destruct (X12 d Hd Hn) as [H|H]; [left|right; exact H]. cbn. rewrite C3. apply filter_In. split; [exact H|]. unfold cne. destruct (Z.eqb_spec (c_id d) (c_id c')); [congruence|reflexivity].
        -- intros o Ho Hr. apply (K3 o). exact Hr.
        -- apply (Kl s3 K3).
        -- cbn. rewrite C3. intros H. apply in_map_iff in H as (d & Ed' & Hd). apply filter_In in Hd as [_ Hd]. unfold cne in Hd. rewrite Ei, Ed', Z.eqb_refl in Hd. discriminate.
        -- reflexivity.
        -- pose proof (replaced_of (c_x c') s2 s3 (v_tb _ _ _ (proj1 G2)) P) as Rp. unfold replaced in *. unfold instances in *. cbn [table cand_touched]. rewrite (proj1 S12) in Rp. exact Rp.
        -- exact P6.
    + destruct P as (I3 & Gr). destruct (grown_good s2 s3 G2 I3 Gr) as (G3 & S3 & K3 & C3).
      assert (O3 : forall k, others k s2 s3). { intros k d Hd _. rewrite C3 in Hd. split; [exact Hd|]. eapply keep_incl; [apply cand_refs; exact Hd|exact K3]. }
      destruct (Fail s3 G3) as (F1 & F2 & F3 & F4 & F5 & F6).
      * rewrite C3. exact Hc'.
      * eapply same_trans; eauto.
      * eapply keep_trans; [exact K12|]. rewrite <- (live_same s s2 S12). eapply keep_incl; [apply live_refs|exact K3].
      * eapply others_trans; [exact O12|apply O3].
      * rewrite C3. exact X12.
      * auto 10.
  - assert (Eb : existsb (fun d => c_id d =? c_id c') (cands s2) = true) by (apply existsb_exists; exists c'; split; [exact Hc'|apply Z.eqb_refl]). rewrite Eb.
    set (c2 := Cand (c_id c') (c_x c') (e_now e) (c_pid c')).
    destruct (set_cand_inv [] c' c2 s2 (proj1 G2) Hc' eq_refl eq_refl (c_wf _ (v_cd _ _ _ (proj1 G2)) _ Hc')) as (I3 & R3 & H3).
    assert (S3 : same_tables s (set_cand c2 s2)) by exact S12.
    split; [|split; [apply S12|split; [intros _; split; [exact S3|exact K12]|]]].
    + split; [exact I3|]. apply (excl_le s2); auto; [rewrite R3; lia| |apply G2]. intros d Hd. apply in_set_cand in Hd as [->|[Hd _]]; [exists c'; auto|exists d; auto].
    + split; [apply iname_spec; exact En|]. exists c, c', (contents s1), (contents s2). split; [exact B|]. split; [apply (c_wf _ (v_cd _ _ _ (proj1 G1))); exact Hc|]. split; [exact U|]. split; [exact Ei|]. split; [exact Ep|]. split; [|split; [|split; [|split]]].
      * intros d Hd Hn. apply in_set_cand in Hd as [->|[Hd _]]; [cbn in Hn; congruence|]. apply O12; auto.
      * intros d Hd Hn. destruct (X12 d Hd Hn) as [H|H]; [left|right; exact H]. apply set_cand_in; [exact H|cbn; congruence].
      * intros o _ _. reflexivity.
      * apply Kl. apply keep_refl.
      * rewrite <- Ei, <- Ep. exact H3.
Qed.

(** ** Steps *)

Lemma excl_same_cands : forall (s s' : st), excl [] s -> cands s' = cands s -> (forall o, (exists c, In c (cands s) /\ In o (databases_of (c_x c))) -> cnt (refs [] s') o = cnt (refs [] s) o) -> excl [] s'.
Proof. intros s s' X Ec H c o Hc Ho. rewrite Ec in Hc. rewrite H by (exists c; auto). apply X with c; auto. Qed.

Lemma add_good : forall e flags n p (s : st), good s -> good (snd (xlator_add W e flags n p s)).
Proof.
  intros e flags n p s G. destruct G as [I X]. pose proof (add_spec [] e flags n p s I) as P. destruct (xlator_add W e flags n p s) as [[|err] s']; cbn [snd].
  - destruct P as (I' & _ & _ & (i & Pi & _ & _ & _ & _ & Fr & _) & _ & Ec & Eh & _). split; [exact I'|]. apply (excl_same_cands s); auto. intros o (c & Hc & Ho).
    rewrite !cnt_users, Ec, Eh, (cnt_perm_users _ _ o (instances_perm s s' _ Pi)). cbn [map]. rewrite cnt_flat_cons. fold (instances s).
    assert (Hn : ~ In o (databases_of (i_x i))). { intros H. specialize (Fr o H). apply (cand_refs s c Hc) in Ho. apply (r_next _ _ (v_rf _ _ _ I)) in Ho. lia. }
    rewrite (proj1 (cnt_notin _ _) Hn). lia.
  - destruct P as (I' & Gr & _). apply (grown_good s s'); [split; assumption|assumption|assumption].
Qed.
Lemma rm_good : forall e xt n (s : st), good s -> good (snd (xlator_rm W e xt n s)).
Proof.
  intros e xt n s G. destruct G as [I X]. pose proof (rm_spec [] e xt n s I) as P. destruct (xlator_rm W e xt n s) as [[|err] s']; cbn [snd].
  - destruct P as (I' & (i & Hi & _ & Pi) & _ & Ec & Eh & _). split; [exact I'|]. apply (excl_le s); auto; [|intros c Hc; exists c; rewrite <- Ec; auto].
    intros o. rewrite !cnt_users, Ec, Eh. unfold instances. rewrite Pi. unfold unlink. pose proof (cnt_filter_le (fun j => negb (i_id j =? i_id i)) i_x (concat (table s)) o). lia.
  - destruct P as [-> _]. split; assumption.
Qed.
Lemma flush_good : forall ns xt (s : st), good s -> good (flush_net ns xt s).
Proof.
  intros ns xt s G. destruct G as [I X]. destruct (flush_spec [] ns xt s I) as (I' & Pi & _ & Ec & Eh & _). split; [exact I'|]. apply (excl_le s); auto; [|intros c Hc; exists c; rewrite <- Ec; auto].
  intros o. rewrite !cnt_users, Ec, Eh. unfold instances. rewrite Pi. pose proof (cnt_filter_le (fun i => negb (gonep ns xt i)) i_x (concat (table s)) o). lia.
Qed.
Lemma global_good : forall e xt n force msg (s : st), xt = 1 \/ xt = 2 -> good s -> good (snd (handle_global_update W e xt n force msg s)).
Proof.
  intros e xt n force msg s Hx G. destruct G as [I X]. pose proof (global_spec e xt n force msg s Hx I) as P. destruct (handle_global_update W e xt n force msg s) as [[|err] s']; cbn [snd].
  - destruct P as (I' & (i & new & m & g & Hi & _ & _ & _ & En & _ & Pi & _) & _ & Ec & Eh & _). split; [exact I'|]. apply (excl_same_cands s); auto. intros o _.
    rewrite !cnt_users, Ec, Eh, (cnt_perm_users _ _ o (instances_perm s s' _ Pi)). unfold instances. rewrite (cnt_perm_users (map i_x (concat (table s))) _ o (Permutation_map i_x (unlink_perm _ i (b_ids _ (v_tb _ _ _ I)) Hi))). cbn [map]. rewrite !cnt_flat_cons, En. reflexivity.
  - destruct P as (I' & _ & Et & _ & Ec & _ & Eh & _). split; [exact I'|]. apply (excl_same_cands s); auto. intros o _. rewrite !cnt_users, Ec, Eh. unfold instances. rewrite Et. reflexivity.
Qed.
Lemma hold_good : forall i (s : st), good s -> In i (concat (table s)) -> good (hold i s) /\ cands (hold i s) = cands s /\ table (hold i s) = table s /\ nf_list (hold i s) = nf_list s /\ hooks (hold i s) = hooks s /\ bad_cand (hold i s) = bad_cand s /\
  held (hold i s) = i_x i :: held s /\ keep (refs [] s) (objs s) (objs (hold i s)).
Proof.
  intros i s G Hi. destruct G as [I X]. destruct (hold_inv [] [] i s I Hi) as (f & Eq & I' & K). rewrite Eq in *. split; [|repeat (split; [reflexivity|]); exact K]. split; [exact I'|].
  apply (excl_same_cands s); auto. intros o (c & Hc & Ho). rewrite !cnt_users. cbn [cands held with_held set_objs]. rewrite cnt_flat_cons. unfold instances. cbn [table with_held set_objs].
  assert (Hn : ~ In o (databases_of (i_x i))). { intros H. destruct (excl_disj s c o X (v_cd _ _ _ I) Hc Ho) as [H' _]. apply H'. unfold live. apply in_flat_map. exists (i_x i). split; [|exact H]. apply in_or_app. left. apply in_map. exact Hi. }
  rewrite (proj1 (cnt_notin _ _) Hn). lia.
Qed.
Lemma put_good : forall k x (s : st), good s -> nth_error (held s) k = Some x -> let s' := xlator_put x (with_held s (firstn k (held s) ++ skipn (S k) (held s))) in
  good s' /\ cands s' = cands s /\ table s' = table s /\ nf_list s' = nf_list s /\ hooks s' = hooks s /\ bad_cand s' = bad_cand s /\ keep (refs [] s') (objs s) (objs s') /\ Permutation (held s) (x :: held s').
Proof.
  intros k x s G Hk. destruct G as [I X]. destruct (put_held_inv [] [] k x s I Hk) as (f & Eq & I' & P & K). cbn zeta. rewrite Eq. split; [|repeat (split; [reflexivity|]); split; [exact K|exact P]]. split; [exact I'|].
  apply (excl_le s); auto; [|intros c Hc; exists c; auto]. intros o. rewrite !cnt_users. cbn [cands held with_held set_objs]. rewrite (cnt_perm_users (held s) _ o P), cnt_flat_cons. unfold instances. cbn [table with_held set_objs]. pose proof (cnt_nonneg (databases_of x) o). lia.
Qed.
Lemma touch_good : forall o d d0 n (s : st), good s -> objs s o = Some (d0, n) -> good (set_objs s (upd (objs s) o (Some (d, n)))).
Proof.
  intros o d d0 n s G Ho. destruct G as [I X]. split; [|exact X]. rewrite <- set_next_same. eapply inv_objs; [exact I|lia| |apply I]. intros o'. pose proof (r_objs _ _ (v_rf _ _ _ I) o') as H. unfold upd. destruct (Z.eqb_spec o' o) as [->|]; [|exact H]. rewrite Ho in H. exact H.
Qed.
Lemma if_xt_cases : forall (P : rc * st -> Prop) xt r s, (xt = 1 \/ xt = 2 -> P r) -> P (Err EINVAL, s) -> P (if_xt xt r s).
Proof. intros P xt r s H1 H2. unfold if_xt. destruct ((xt =? XT_SIIT) || (xt =? XT_NAT64)) eqn:Ex; [apply H1|exact H2]. unfold XT_SIIT, XT_NAT64 in Ex. lia. Qed.
Lemma flush_eq : forall e xt (s : st), snd (xlator_flush e xt s) = s \/ exists ns, snd (xlator_flush e xt s) = flush_net ns xt s.
Proof. intros e xt s. unfold xlator_flush. try destruct (xt_validate xt); cbn; eauto. Qed.

Lemma good_step : forall (s : st) o, good s -> good (snd (step W s o)).
Proof.
  intros s o G. destruct o as [e xt xf n p|e xt n|e xt|ns xt|e xt n force msg|e m|ns flags n|ns|k o d|k]; cbn [step].
  - apply (if_xt_cases (fun r => good (snd r))); [intros _; apply add_good; exact G|exact G].
  - apply (if_xt_cases (fun r => good (snd r))); [intros _; apply rm_good; exact G|exact G].
  - apply (if_xt_cases (fun r => good (snd r))); [|exact G]. intros _. destruct (flush_eq e xt s) as [->|[ns ->]]; [exact G|apply flush_good; exact G].
  - apply flush_good. exact G.
  - apply (if_xt_cases (fun r => good (snd r))); [intros Hx; apply global_good; assumption|exact G].
  - apply (if_xt_cases (fun r => good (snd r))); [|exact G]. intros _. pose proof (atomic_spec e m s G) as P. destruct (atomconfig_add W e m s). apply P.
  - pose proof (xlator_find_spec s ns flags n (v_tb _ _ _ (proj1 G))) as P. destruct (xlator_find W s ns flags n) as [[|err] [i|]]; try contradiction; try exact G. apply hold_good; [exact G|apply P].
  - unfold xlator_find_netfilter. destruct (find (fun i => ns =? x_ns (i_x i)) (nf_list s)) as [i|] eqn:Ef; [|exact G]. apply find_some in Ef as [Hi _]. apply hold_good; [exact G|]. apply (nf_in s i (v_tb _ _ _ (proj1 G)) Hi).
  - destruct (nth_error (held s) k) as [x|] eqn:Ek; [|exact G]. destruct (existsb (Z.eqb o) (databases_of x)) eqn:Ex; [|exact G].
    apply existsb_exists in Ex as (o' & Ho & Eo). apply Z.eqb_eq in Eo. subst o'. apply nth_error_In in Ek.
    assert (Hr : In o (refs [] s)) by (apply (in_users [] s x); [cbn; unfold users; rewrite !in_app_iff; auto|exact Ho]). apply (objs_ok_alive _ _ _ (r_objs _ _ (v_rf _ _ _ (proj1 G)))) in Hr.
    destruct (objs s o) as [[d0 n]|] eqn:Eo; [|congruence]. cbn [snd]. rewrite with_objs_false. eapply touch_good; eauto.
  - destruct (nth_error (held s) k) as [x|] eqn:Ek; [|exact G]. cbn [snd]. apply put_good; assumption.
Qed.
Lemma good_init : good init.
Proof.
  assert (Ec : concat (table (init (D := D))) = []) by reflexivity. split.
  - split.
    + split; unfold instances; rewrite ?Ec; try reflexivity; try (apply NoDup_nil); try solve [intros i0 []].
      intros h0 i0 Hi. exfalso. assert (Hc : In i0 (concat (table (init (D := D))))) by (apply in_bucket; exists h0; exact Hi). rewrite Ec in Hc. exact Hc.
    + split; rewrite ?Ec; try (apply NoDup_nil); try reflexivity; intros i0 [].
    + split; [|cbn; tauto|reflexivity]. intros o. reflexivity.
    + split; try (apply NoDup_nil); intros c0 [].
  - intros c o Hc. destruct Hc.
Qed.
Lemma good_run : forall l (s : st), good s -> good (run W s l).
Proof. induction l as [|o l IH]; intros s G; cbn [run]; [exact G|]. apply IH. apply good_step. exact G. Qed.

(** Other operations leave candidates alone. *)
Lemma frame_step : forall (s : st) o, good s -> (forall e m, o <> Atomic e m) -> let s' := snd (step W s o) in cands s' = cands s /\ forall c, In c (cands s) -> keep (databases_of (c_x c)) (objs s) (objs s').
Proof.
  intros s o G Na. destruct G as [I X].
  assert (Refl : cands s = cands s /\ forall c, In c (cands s) -> keep (databases_of (c_x c)) (objs s) (objs s)) by (split; [reflexivity|intros; apply keep_refl]).
  assert (Sub : forall s', keep (refs [] s') (objs s) (objs s') -> cands s' = cands s -> cands s' = cands s /\ forall c, In c (cands s) -> keep (databases_of (c_x c)) (objs s) (objs s')).
  { intros s' K Ec. split; [exact Ec|]. intros c Hc. eapply keep_incl; [|exact K]. apply cand_refs. rewrite Ec. exact Hc. }
  assert (Sup : forall s', keep (refs [] s) (objs s) (objs s') -> cands s' = cands s -> cands s' = cands s /\ forall c, In c (cands s) -> keep (databases_of (c_x c)) (objs s) (objs s')).
  { intros s' K Ec. split; [exact Ec|]. intros c Hc. eapply keep_incl; [|exact K]. apply cand_refs. exact Hc. }
  destruct o as [e xt xf n p|e xt n|e xt|ns xt|e xt n force msg|e m|ns flags n|ns|k o d|k]; cbn zeta; cbn [step].
  - apply (if_xt_cases (fun r => cands (snd r) = cands s /\ forall c, In c (cands s) -> keep (databases_of (c_x c)) (objs s) (objs (snd r)))); [|exact Refl]. intros _.
    pose proof (add_spec [] e (Z.lor xf xt) n p s I) as P. destruct (xlator_add W e (Z.lor xf xt) n p s) as [[|err] s']; cbn [snd]; [apply Sup; apply P|]. destruct P as (I' & Gr & _). apply Sup; apply (grown_good s s'); auto; split; assumption.
  - apply (if_xt_cases (fun r => cands (snd r) = cands s /\ forall c, In c (cands s) -> keep (databases_of (c_x c)) (objs s) (objs (snd r)))); [|exact Refl]. intros _.
    pose proof (rm_spec [] e xt n s I) as P. destruct (xlator_rm W e xt n s) as [[|err] s']; cbn [snd]; [apply Sub; apply P|]. destruct P as [-> _]. exact Refl.
  - apply (if_xt_cases (fun r => cands (snd r) = cands s /\ forall c, In c (cands s) -> keep (databases_of (c_x c)) (objs s) (objs (snd r)))); [|exact Refl]. intros _.
    destruct (flush_eq e xt s) as [->|[ns ->]]; [exact Refl|]. apply Sub; apply (flush_spec [] ns xt s I).
  - apply Sub; apply (flush_spec [] ns xt s I).
  - apply (if_xt_cases (fun r => cands (snd r) = cands s /\ forall c, In c (cands s) -> keep (databases_of (c_x c)) (objs s) (objs (snd r)))); [|exact Refl]. intros Hx.
    pose proof (global_spec e xt n force msg s Hx I) as P. destruct (handle_global_update W e xt n force msg s) as [[|err] s']; cbn [snd].
    + destruct P as (_ & _ & Eo & Ec & _). apply Sub; [intros o _; rewrite Eo; reflexivity|exact Ec].
    + destruct P as (_ & Eo & _ & _ & Ec & _). apply Sub; [intros o _; rewrite Eo; reflexivity|exact Ec].
  - destruct (Na e m eq_refl).
  - pose proof (xlator_find_spec s ns flags n (v_tb _ _ _ I)) as P. destruct (xlator_find W s ns flags n) as [[|err] [i|]]; try contradiction; try exact Refl. apply Sup; apply (hold_good i s (conj I X)); apply P.
  - unfold xlator_find_netfilter. destruct (find (fun i => ns =? x_ns (i_x i)) (nf_list s)) as [i|] eqn:Ef; [|exact Refl]. apply find_some in Ef as [Hi _]. apply (nf_in s i (v_tb _ _ _ I)) in Hi as [Hi _]. apply Sup; apply (hold_good i s (conj I X)); exact Hi.
  - destruct (nth_error (held s) k) as [x|] eqn:Ek; [|exact Refl]. destruct (existsb (Z.eqb o) (databases_of x)) eqn:Ex; [|exact Refl].
    apply existsb_exists in Ex as (o' & Ho & Eo). apply Z.eqb_eq in Eo. subst o'. apply nth_error_In in Ek. 
    destruct (objs s o) as [[d0 n]|] eqn:Eo; cbn [snd]; [|exact Refl]. split; [reflexivity|]. intros c Hc o' Ho'. cbn. unfold upd. destruct (Z.eqb_spec o' o) as [->|]; [|reflexivity]. exfalso.
    destruct (excl_disj s c o X (v_cd _ _ _ I) Hc Ho') as [H _]. apply H. unfold live. apply in_flat_map. exists x. split; [|exact Ho]. apply in_or_app. auto.
  - destruct (nth_error (held s) k) as [x|] eqn:Ek; [|exact Refl]. cbn [snd]. apply Sub; apply (put_good k x s (conj I X) Ek).
Qed.

(** ** Settings *)

Definition glob_ok (x : xlator) : Prop := gok (type_of x) (x_glob x).
Definition served (x : xlator) : Prop := glob_ok x /\ (type_of x = 2 -> set6 (pool6 (x_glob x)) = true).
Definition goks (s : st) : Prop := (forall x, In x (instances s ++ held s) -> served x) /\ (forall c, In c (cands s) -> glob_ok (c_x c)).
Lemma type_xt : forall x, well_formed x -> type_of x = XT_SIIT \/ type_of x = XT_NAT64. Proof. intros x F. apply type_cases in F. exact F. Qed.

Lemma goks_sub : forall (s s' : st), goks s -> incl (instances s' ++ held s') (instances s ++ held s) -> cands s' = cands s -> goks s'.
Proof. intros s s' [H1 H2] L Ec. split; [intros x Hx; apply H1; apply L; exact Hx|rewrite Ec; exact H2]. Qed.
Lemma goks_tables : forall (s s' : st), goks s -> table s' = table s -> held s' = held s -> cands s' = cands s -> goks s'.
Proof. intros s s' G Et Eh Ec. apply (goks_sub s); auto. unfold instances. rewrite Et, Eh. apply incl_refl. Qed.
Lemma served_with_glob : forall x, served (inherit x x) -> served x. Proof. intros x H. unfold inherit in H. destruct x as [? ? ? ? ? []]; exact H. Qed.
Lemma inherit_served : forall x old, served x -> served (inherit x old).
Proof. intros x old H. unfold served, glob_ok, type_of in *. destruct (inherit_fields x old) as (_ & _ & E1 & E2 & _). rewrite E1, E2. exact H. Qed.

Lemma goks_atomic : forall e m (s : st), good s -> goks s -> wt_globals (e_mem e) -> match m_globals m with Some msg => wt_msg msg | None => True end -> goks (snd (atomconfig_add W e m s)).
Proof.
  intros e m s G [H1 H2] We Wm. pose proof (atomic_spec e m s G) as P. destruct (atomconfig_add W e m s) as [r s']; cbn [snd]. destruct P as (G' & Eh & Same & P).
  assert (Tab : (r <> OK \/ m_end m = false) -> forall x, In x (instances s' ++ held s') -> served x). { intros H. destruct (Same H) as [(Et & _ & _ & Eh' & _) _]. unfold instances. rewrite Et, Eh'. exact H1. }
  destruct r as [|err].
  2:{ destruct P as [O _]. split; [apply Tab; left; discriminate|]. intros c Hc. apply H2. apply (O (c_id c + 1) c Hc). lia. }
  destruct P as (_ & c & c' & f & g & B & F & U & Ei & _ & O & _ & _ & _ & P).
  assert (Gc : glob_ok (c_x c)).
  { unfold begun in B. destruct (m_init m) as [xf|].
    - destruct B as (_ & _ & _ & _ & _ & Bg & _). apply (init_ok (type_of (c_x c)) None (e_mem e) (x_glob (c_x c)) (type_xt _ F) We Logic.I Bg).
    - destruct B as [B _]. apply find_some in B as [Hc _]. apply H2; exact Hc. }
  assert (Gc' : glob_ok (c_x c')).
  { destruct U as [(_ & _ & Ef & _ & _ & Eg) _]. unfold glob_ok in *. unfold type_of in *. rewrite Ef. destruct (m_globals m) as [msg|]; [|rewrite Eg; exact Gc].
    pose proof (update_spec (x_flags (c_x c) mod 4) (m_force m) msg (x_glob (c_x c)) (type_xt _ F) Gc Wm) as Us. rewrite Eg in Us. apply Us. }
  assert (Hcs : forall d, In d (cands s') -> c_id d <> c_id c -> glob_ok (c_x d)). { intros d Hd Hn. apply H2. apply (O d Hd Hn). }
  destruct (m_end m).
  - destruct P as (Hn & _ & R & S6). split.
    + assert (Sv : served (c_x c')) by (split; assumption). intros x Hx. rewrite Eh in Hx. apply in_app_or in Hx as [Hx|Hx]; [|apply H1; apply in_or_app; right; exact Hx].
      destruct R as [(_ & Pm)|(old & rest & Pm & _ & _ & _ & Pm')].
      * apply (Permutation_in x) in Pm; [|exact Hx]. destruct Pm as [<-|Hx']; [exact Sv|apply H1; apply in_or_app; left; exact Hx'].
      * apply (Permutation_in x) in Pm'; [|exact Hx]. destruct Pm' as [<-|Hx']; [apply inherit_served; exact Sv|]. apply H1. apply in_or_app. left. apply (Permutation_in x (Permutation_sym Pm)). right. exact Hx'.
    + intros d Hd. apply Hcs; [exact Hd|]. intros E0. apply Hn. rewrite <- E0. apply in_map. exact Hd.
  - split; [apply Tab; right; reflexivity|]. intros d Hd. destruct (Z.eq_dec (c_id d) (c_id c)) as [E0|E0]; [|apply Hcs; assumption].
    assert (d = Cand (c_id c) (c_x c') (e_now e) (c_pid c)); [|subst d; exact Gc']. apply (cand_same s' _ _ (v_cd _ _ _ (proj1 G'))); auto.
Qed.
Lemma goks_step : forall (s : st) o, good s -> goks s -> wt_op o -> goks (snd (step W s o)).
Proof.
  intros s o G Gk Wo. pose proof (proj1 G) as I. destruct Gk as [H1 H2]. destruct o as [e xt xf n p|e xt n|e xt|ns xt|e xt n force msg|e m|ns flags n|ns|k o d|k]; cbn [step wt_op] in *.
  - apply (if_xt_cases (fun r => goks (snd r))); [|split; assumption]. intros _. pose proof (add_spec [] e (Z.lor xf xt) n p s I) as P. destruct (xlator_add W e (Z.lor xf xt) n p s) as [[|err] s']; cbn [snd].
    + destruct P as (I' & Bv & _ & (i & Pi & _ & _ & Ef & Eg & _) & _ & Ec & Eh & _). split; [|rewrite Ec; exact H2].
      assert (F : well_formed (i_x i)). { apply (b_wf _ (v_tb _ _ _ I')). apply (Permutation_in _ (Permutation_sym Pi)). left. reflexivity. }
      intros x Hx. rewrite Eh in Hx. apply in_app_or in Hx as [Hx|Hx]; [|apply H1; apply in_or_app; right; exact Hx].
      apply (Permutation_in x (instances_perm s s' _ Pi)) in Hx. destruct Hx as [<-|Hx]; [|apply H1; apply in_or_app; left; exact Hx].
      destruct Wo as [We Wp]. destruct (init_ok _ p _ _ (type_xt _ F) We Wp Eg) as (Gg & S6 & _). split; [exact Gg|]. intros T2. rewrite S6. apply basic_add_spec in Bv as (_ & _ & _ & Bv). unfold type_of in T2. rewrite Ef in T2. specialize (Bv T2). destruct p; [reflexivity|congruence].
    + destruct P as (I' & Gr & _). destruct (grown_good s s' G I' Gr) as (_ & (Et & _ & _ & Eh & _) & _ & Ec). apply (goks_tables s); auto. split; assumption.
  - apply (if_xt_cases (fun r => goks (snd r))); [|split; assumption]. intros _. pose proof (rm_spec [] e xt n s I) as P. destruct (xlator_rm W e xt n s) as [[|err] s']; cbn [snd].
    + destruct P as (_ & (i & _ & _ & Pi) & _ & Ec & Eh & _). apply (goks_sub s); auto; [split; assumption|]. unfold instances. rewrite Pi, Eh. unfold unlink. intros x Hx. apply in_app_or in Hx as [Hx|Hx]; apply in_or_app; [left|right; exact Hx].
      apply in_map_iff in Hx as (j & <- & Hj). apply filter_In in Hj as [Hj _]. apply in_map. exact Hj.
    + destruct P as [-> _]. split; assumption.
  - apply (if_xt_cases (fun r => goks (snd r))); [|split; assumption]. intros _. destruct (flush_eq e xt s) as [->|[ns ->]]; [split; assumption|].
    destruct (flush_spec [] ns xt s I) as (_ & Pi & _ & Ec & Eh & _). apply (goks_sub s); auto; [split; assumption|]. unfold instances. rewrite Pi, Eh. intros x Hx. apply in_app_or in Hx as [Hx|Hx]; apply in_or_app; [left|right; exact Hx].
    apply in_map_iff in Hx as (j & <- & Hj). apply filter_In in Hj as [Hj _]. apply in_map. exact Hj.
  - destruct (flush_spec [] ns xt s I) as (_ & Pi & _ & Ec & Eh & _). apply (goks_sub s); auto; [split; assumption|]. unfold instances. cbn [snd]. rewrite Pi, Eh. intros x Hx. apply in_app_or in Hx as [Hx|Hx]; apply in_or_app; [left|right; exact Hx].
    apply in_map_iff in Hx as (j & <- & Hj). apply filter_In in Hj as [Hj _]. apply in_map. exact Hj.
  - apply (if_xt_cases (fun r => goks (snd r))); [|split; assumption]. intros Hx. pose proof (global_spec e xt n force msg s Hx I) as P. destruct (handle_global_update W e xt n force msg s) as [[|err] s']; cbn [snd].
    + destruct P as (_ & (i & new & m & g & Hi & Hk & Em & Eg & En & _ & Pi & _ & S6) & _ & Ec & Eh & _). split; [|rewrite Ec; exact H2]. subst msg.
      assert (Hi' : In (i_x i) (instances s)) by (apply in_map; exact Hi). assert (Ht : type_of (i_x i) = xt) by (injection Hk; auto).
      intros x Hx'. rewrite Eh in Hx'. apply in_app_or in Hx' as [Hx'|Hx']; [|apply H1; apply in_or_app; right; exact Hx'].
      apply (Permutation_in x (instances_perm s s' _ Pi)) in Hx'. destruct Hx' as [<-|Hx'].
      * rewrite En. destruct (H1 (i_x i)) as [Gi _]; [apply in_or_app; left; exact Hi'|]. unfold served, glob_ok in *. change (type_of (with_glob (i_x i) g)) with (type_of (i_x i)). cbn [with_glob x_glob]. rewrite Ht in *.
        pose proof (update_spec xt force m _ Hx Gi Wo) as U. rewrite Eg in U. split; [apply U|exact S6].
      * apply H1. apply in_or_app. left. apply in_map_iff in Hx' as (j & <- & Hj). unfold unlink in Hj. apply filter_In in Hj as [Hj _]. apply in_map. exact Hj.
    + destruct P as (_ & _ & Et & _ & Ec & _ & Eh & _). apply (goks_tables s); auto. split; assumption.
  - apply (if_xt_cases (fun r => goks (snd r))); [|split; assumption]. intros _. destruct Wo. apply goks_atomic; auto. split; assumption.
  - pose proof (xlator_find_spec s ns flags n (v_tb _ _ _ I)) as P. destruct (xlator_find W s ns flags n) as [[|err] [i|]]; try contradiction; try (split; assumption). destruct P as [Hi _]. destruct (hold_good i s G Hi) as (_ & Ec & Et & _ & _ & _ & Eh & _).
    apply (goks_sub s); auto; [split; assumption|]. cbn [snd]. unfold instances. rewrite Et, Eh. intros x Hx. apply in_app_or in Hx as [Hx|[<-|Hx]]; apply in_or_app; auto. left. apply in_map. exact Hi.
  - unfold xlator_find_netfilter. destruct (find (fun i => ns =? x_ns (i_x i)) (nf_list s)) as [i|] eqn:Ef; [|split; assumption]. apply find_some in Ef as [Hi _]. apply (nf_in s i (v_tb _ _ _ I)) in Hi as [Hi _]. destruct (hold_good i s G Hi) as (_ & Ec & Et & _ & _ & _ & Eh & _).
    apply (goks_sub s); auto; [split; assumption|]. cbn [snd]. unfold instances. rewrite Et, Eh. intros x Hx. apply in_app_or in Hx as [Hx|[<-|Hx]]; apply in_or_app; auto. left. apply in_map. exact Hi.
  - destruct (nth_error (held s) k) as [x|]; [|split; assumption]. destruct (existsb (Z.eqb o) (databases_of x)); [|split; assumption]. destruct (objs s o) as [[d0 n]|]; cbn [snd]; split; assumption.
  - destruct (nth_error (held s) k) as [x|] eqn:Ek; [|split; assumption]. destruct (put_good k x s G Ek) as (_ & Ec & Et & _ & _ & _ & _ & Ph). cbn [snd].
    apply (goks_sub s); auto; [split; assumption|]. unfold instances. rewrite Et. intros y Hy. apply in_app_or in Hy as [Hy|Hy]; apply in_or_app; auto. right. apply (Permutation_in y (Permutation_sym Ph)). right. exact Hy.
Qed.
Lemma goks_run : forall l (s : st), good s -> goks s -> Forall wt_op l -> goks (run W s l).
Proof. induction l as [|o l IH]; intros s G Gk Hw; cbn [run]; [exact Gk|]. inversion Hw; subst. apply IH; [apply good_step; exact G|apply goks_step; assumption|assumption]. Qed.
Lemma goks_init : goks init. Proof. split; cbn; tauto. Qed.

(** ** Netfilter instances *)

Definition nfx (x : xlator) : bool := framework_of x =? 1.
Definition tag (x : xlator) : Z * Z := (x_ns x, type_of x).
Definition nfu (s : st) : Prop := NoDup (map tag (filter nfx (instances s))).
Lemma nfu_perm : forall (s : st) l, Permutation (instances s) l -> (nfu s <-> NoDup (map tag (filter nfx l))).
Proof. intros s l P. unfold nfu. pose proof (Permutation_map tag (perm_filter nfx _ _ P)) as Q. split; apply Permutation_NoDup; [exact Q|symmetry; exact Q]. Qed.
Lemma nfu_filter : forall (p : instance -> bool) l, NoDup (map tag (filter nfx (map i_x l))) -> NoDup (map tag (filter nfx (map i_x (filter p l)))).
Proof.
  intros p l. induction l as [|i l IH]; cbn [map filter]; intros H; [exact H|]. assert (H' : NoDup (map tag (filter nfx (map i_x l)))). { destruct (nfx (i_x i)); [inversion H|]; assumption. }
  destruct (p i); [|auto]. cbn [map filter]. destruct (nfx (i_x i)); [|auto]. cbn [map] in *. inversion H; subst. constructor; [|auto]. intros Hi. apply H2.
  clear - Hi. apply in_map_iff in Hi as (x & Ex & Hx). apply filter_In in Hx as [Hx Hn]. apply in_map_iff in Hx as (j & <- & Hj). apply filter_In in Hj as [Hj _]. apply in_map_iff. exists (i_x j). split; [exact Ex|]. apply filter_In. split; [apply in_map; exact Hj|exact Hn].
Qed.
Lemma nfu_swap : forall x y l, nfx x = nfx y -> tag x = tag y -> NoDup (map tag (filter nfx (x :: l))) -> NoDup (map tag (filter nfx (y :: l))).
Proof. intros x y l E1 E2 H. cbn [filter] in *. rewrite E1 in H. destruct (nfx y); [|exact H]. cbn [map] in *. rewrite <- E2. exact H. Qed.
Lemma nfu_step : forall (s : st) o, good s -> nfu s -> (match o with Atomic _ _ => incl (map key (instances (snd (step W s o)))) (map key (instances s)) | _ => True end) -> nfu (snd (step W s o)).
Proof.
  intros s o G N Hn. pose proof (proj1 G) as I. destruct o as [e xt xf n p|e xt n|e xt|ns xt|e xt n force msg|e m|ns flags n|ns|k o d|k]; cbn [step] in *.
  - clear Hn. apply (if_xt_cases (fun r => nfu (snd r))); [|exact N]. intros _. pose proof (add_spec [] e (Z.lor xf xt) n p s I) as P. destruct (xlator_add W e (Z.lor xf xt) n p s) as [[|err] s']; cbn [snd].
    + destruct P as (I' & _ & Cv & (i & Pi & En & _ & Ef & _) & _). apply (nfu_perm s' _ (instances_perm s s' _ Pi)). cbn [map filter]. destruct (nfx (i_x i)) eqn:Nx; [|exact N]. cbn [map]. constructor; [|exact N].
      intros Hi. apply in_map_iff in Hi as (y & Ey & Hy). apply filter_In in Hy as [Hy Ny]. injection Ey as Ey1 Ey2.
      apply (collision_spec s _ _ _ (v_tb _ _ _ I)) with (x := y) in Cv; [|exact Hy|congruence|rewrite Ey2; unfold type_of; rewrite Ef; reflexivity]. destruct Cv as [_ Cv]. apply Cv. split; [|apply Z.eqb_eq; exact Ny].
      rewrite <- Ef. change (is_netfilter (i_x i) = true). rewrite is_netfilter_spec; [exact Nx|]. apply (b_wf _ (v_tb _ _ _ I')). apply (Permutation_in _ (Permutation_sym Pi)). left. reflexivity.
    + destruct P as (I' & Gr & _). destruct (grown_good s s' G I' Gr) as (_ & (Et & _) & _). unfold nfu, instances. rewrite Et. exact N.
  - clear Hn. apply (if_xt_cases (fun r => nfu (snd r))); [|exact N]. intros _. pose proof (rm_spec [] e xt n s I) as P. destruct (xlator_rm W e xt n s) as [[|err] s']; cbn [snd].
    + destruct P as (_ & (i & _ & _ & Pi) & _). unfold nfu, instances. rewrite Pi. apply nfu_filter. exact N.
    + destruct P as [-> _]. exact N.
  - clear Hn. apply (if_xt_cases (fun r => nfu (snd r))); [|exact N]. intros _. destruct (flush_eq e xt s) as [->|[ns ->]]; [exact N|]. destruct (flush_spec [] ns xt s I) as (_ & Pi & _). unfold nfu, instances. rewrite Pi. apply nfu_filter. exact N.
  - destruct (flush_spec [] ns xt s I) as (_ & Pi & _). unfold nfu, instances. cbn [snd]. rewrite Pi. apply nfu_filter. exact N.
  - clear Hn. apply (if_xt_cases (fun r => nfu (snd r))); [|exact N]. intros Hx. pose proof (global_spec e xt n force msg s Hx I) as P. destruct (handle_global_update W e xt n force msg s) as [[|err] s']; cbn [snd].
    + destruct P as (_ & (i & new & m & g & Hi & _ & _ & _ & En & _ & Pi & _) & _). apply (nfu_perm s' _ (instances_perm s s' _ Pi)). cbn [map]. apply (nfu_swap (i_x i)); [rewrite En; reflexivity|rewrite En; reflexivity|].
      apply (nfu_perm s). 2: exact N. unfold instances. rewrite (unlink_perm _ i (b_ids _ (v_tb _ _ _ I)) Hi) at 1. reflexivity.
    + destruct P as (_ & _ & Et & _). unfold nfu, instances. rewrite Et. exact N.
  - revert Hn. apply (if_xt_cases (fun r => incl (map key (instances (snd r))) (map key (instances s)) -> nfu (snd r))); [|intros _; exact N]. intros _. pose proof (atomic_spec e m s G) as P. destruct (atomconfig_add W e m s) as [r s']; cbn [snd]. intros Hn.
    destruct P as (_ & _ & Same & P). assert (Dec : (r <> OK \/ m_end m = false) \/ (r = OK /\ m_end m = true)) by (destruct r, (m_end m); auto; left; left; discriminate).
    destruct Dec as [Dec|[-> Em]]; [destruct (Same Dec) as [(Et & _) _]; unfold nfu, instances; rewrite Et; exact N|]. rewrite Em in P. destruct P as (_ & c & c' & f & g & _ & _ & _ & _ & _ & _ & _ & _ & _ & _ & _ & R & _).
    destruct R as [(Hk & P)|(old & rest & P & Ek & Ef & _ & P')].
    * exfalso. apply Hk. apply Hn. apply in_map. apply (Permutation_in _ (Permutation_sym P)). left. reflexivity.
    * apply (nfu_perm s' _ P'). apply (nfu_perm s _ P) in N. injection Ek as Ek1 Ek2 Ek3. destruct (inherit_fields (c_x c') old) as (F1 & _ & F2 & _). apply (nfu_swap old); [unfold nfx, framework_of in *; rewrite F2, <- Ef; reflexivity|unfold tag, type_of in *; rewrite F1, F2; congruence|exact N].
  - pose proof (xlator_find_spec s ns flags n (v_tb _ _ _ I)) as P. destruct (xlator_find W s ns flags n) as [[|err] [i|]]; try contradiction; try exact N. destruct P as [Hi _]. destruct (hold_good i s G Hi) as (_ & _ & Et & _). unfold nfu, instances. cbn [snd]. rewrite Et. exact N.
  - unfold xlator_find_netfilter. destruct (find (fun i => ns =? x_ns (i_x i)) (nf_list s)) as [i|] eqn:Ef; [|exact N]. apply find_some in Ef as [Hi _]. apply (nf_in s i (v_tb _ _ _ I)) in Hi as [Hi _]. destruct (hold_good i s G Hi) as (_ & _ & Et & _). unfold nfu, instances. cbn [snd]. rewrite Et. exact N.
  - destruct (nth_error (held s) k) as [x|]; [|exact N]. destruct (existsb (Z.eqb o) (databases_of x)); [|exact N]. destruct (objs s o) as [[d0 n]|]; exact N.
  - destruct (nth_error (held s) k) as [x|] eqn:Ek; [|exact N]. destruct (put_good k x s G Ek) as (_ & _ & Et & _). unfold nfu, instances. cbn [snd]. rewrite Et. exact N.
Qed.
Lemma nfu_run : forall l (s : st), good s -> nfu s -> no_creation W s l -> nfu (run W s l).
Proof.
  induction l as [|o l IH]; intros s G N Hn; cbn [run no_creation] in *; [exact N|]. destruct Hn as [H1 H2]. apply IH; [apply good_step; exact G| |exact H2]. apply nfu_step; auto.
Qed.

(** ** Listing *)

Definition view (i : instance) : Z * name := (x_ns (i_x i) mod 2 ^ 32, x_name (i_x i)).
Definition shown_by (xt : Z) (i : instance) : bool := bit_and (flags2xt (x_flags (i_x i))) xt.
Definition view_eqb (a b : Z * name) : bool := (fst a =? fst b) && name_eqb (snd a) (snd b).
Lemma view_eqb_spec : forall a b, view_eqb a b = true <-> a = b.
Proof. intros [a1 a2] [b1 b2]. unfold view_eqb. cbn. rewrite andb_true_iff, Z.eqb_eq, name_eqb_spec. split; [intros [-> ->]; reflexivity|intros [= -> ->]; auto]. Qed.
Lemma foreach_view : forall xt l off cap, let '(r, more, off') := foreach_loop xt l off cap in (map view r, more, off') = Paging.foreach_page view_eqb (map view (filter (shown_by xt) l)) cap off.
Proof.
  intros xt l. induction l as [|i l IH]; intros off cap; cbn [foreach_loop filter map]; [reflexivity|]. fold (shown_by xt i). destruct (shown_by xt i); cbn [negb]; [|apply IH]. cbn [map Paging.foreach_page]. destruct off as [k|].
  - change (offset_equals k i) with (view_eqb k (view i)). apply (IH (if view_eqb k (view i) then None else Some k) cap).
  - destruct cap as [|cap]; [reflexivity|]. specialize (IH None cap). destruct (foreach_loop xt l None cap) as [[r more] off']. rewrite <- IH. reflexivity.
Qed.
Lemma foreach_off : forall xt l off cap, let '(r, more, off') := foreach_loop xt l off cap in off' = None \/ (off' = off /\ more = false).
Proof.
  intros xt l. induction l as [|i l IH]; intros off cap; cbn [foreach_loop]; [auto|]. destruct (negb _); [apply IH|]. destruct off as [k|].
  - specialize (IH (if offset_equals k i then None else Some k) cap). destruct (foreach_loop xt l (if offset_equals k i then None else Some k) cap) as [[r more] off']. destruct (offset_equals k i); [|exact IH]. destruct IH as [->|[-> _]]; auto.
  - destruct cap as [|cap]; [auto|]. specialize (IH None cap). destruct (foreach_loop xt l None cap) as [[r more] off']. exact IH.
Qed.
Lemma reply_page : forall (s : st) xt cap off, reply s xt cap off = Paging.foreach_page view_eqb (map view (filter (shown_by xt) (concat (table s)))) cap off.
Proof.
  intros s xt cap off. pose proof (foreach_view xt (concat (table s)) off cap) as V. pose proof (foreach_off xt (concat (table s)) off cap) as O. unfold reply, xlator_foreach, all_instances.
  destruct (foreach_loop xt (concat (table s)) off cap) as [[r more] off']. rewrite <- V. destruct O as [->|[-> ->]]; [reflexivity|]. destruct off; reflexivity.
Qed.
End Inst.
