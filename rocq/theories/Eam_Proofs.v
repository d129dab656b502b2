Require Import Verif.Base Verif.Addr_Model Verif.Addr_Spec Verif.Addr_Proofs.
Require Import Verif.Rtrie_Model Verif.Rtrie_Spec Verif.Rtrie_Proofs Verif.Rtrie_Steps Verif.Rtrie_Hist.
Require Import Verif.Eam_Model Verif.Eam_Spec.

(** ** Keys and prefixes *)
Lemma kbits_length : forall w a l, length (kbits w a l) = Z.to_nat l.
Proof. intros. unfold kbits. rewrite map_length, seq_length. reflexivity. Qed.

Lemma kbits_firstn : forall w a l n, (n <= Z.to_nat l)%nat -> firstn n (kbits w a l) = kbits w a (Z.of_nat n).
Proof.
  intros w a l n Hn. unfold kbits. rewrite firstn_map. rewrite Nat2Z.id. f_equal.
  replace (Z.to_nat l) with (n + (Z.to_nat l - n))%nat by lia. rewrite seq_app. rewrite firstn_app.
  rewrite seq_length, Nat.sub_diag. rewrite firstn_O, app_nil_r. apply firstn_all2. rewrite seq_length. lia.
Qed.

Lemma prefix_of_firstn : forall a b, prefix_of a b <-> (length a <= length b)%nat /\ firstn (length a) b = a.
Proof.
  intros a b. split.
  - intros (s & ->). rewrite app_length. split; [lia|]. apply firstn_app_exact.
  - intros (H1 & H2). exists (skipn (length a) b). rewrite <- H2 at 1. symmetry. apply firstn_skipn.
Qed.

Lemma kbits_eq : forall w a b l, 0 <= l ->
  kbits w a l = kbits w b l <-> (forall i, 0 <= i < l -> msb_bit w a i = msb_bit w b i).
Proof.
  intros w a b l Hl. unfold kbits. split.
  - intros H i Hi.
    assert (E : nth (Z.to_nat i) (map (fun i => msb_bit w a (Z.of_nat i)) (seq 0 (Z.to_nat l))) false =
                nth (Z.to_nat i) (map (fun i => msb_bit w b (Z.of_nat i)) (seq 0 (Z.to_nat l))) false) by (rewrite H; reflexivity).
    rewrite (nth_indep _ false (msb_bit w a (Z.of_nat 0))) in E by (rewrite map_length, seq_length; lia).
    rewrite (nth_indep (map (fun i => msb_bit w b (Z.of_nat i)) _) false (msb_bit w b (Z.of_nat 0))) in E by (rewrite map_length, seq_length; lia).
    rewrite (map_nth (fun i => msb_bit w a (Z.of_nat i))), (map_nth (fun i => msb_bit w b (Z.of_nat i))) in E.
    rewrite !seq_nth in E by lia. cbn [Nat.add] in E. rewrite Z2Nat.id in E by lia. exact E.
  - intros H. apply map_ext_in. intros i Hi. apply in_seq in Hi. apply H. lia.
Qed.

Lemma kbits_prefix : forall w a1 l1 a2 l2, 0 <= l1 <= w -> 0 <= l2 -> 0 <= a1 < 2^w -> 0 <= a2 < 2^w ->
  prefix_of (kbits w a1 l1) (kbits w a2 l2) <-> l1 <= l2 /\ in_prefix w a1 l1 a2.
Proof.
  intros w a1 l1 a2 l2 H1 H2 Ha1 Ha2. rewrite prefix_of_firstn, !kbits_length. rewrite in_prefix_bits by lia.
  split.
  - intros (Hl & E). split; [lia|]. rewrite kbits_firstn, Z2Nat.id in E by lia. rewrite kbits_eq in E by lia.
    intros i Hi. symmetry. apply E. lia.
  - intros (Hl & E). split; [lia|]. rewrite kbits_firstn, Z2Nat.id by lia. apply kbits_eq; [lia|].
    intros i Hi. symmetry. apply E. lia.
Qed.

Lemma in_prefix_sym : forall w a b l, in_prefix w a l b -> in_prefix w b l a.
Proof. unfold in_prefix. intros. auto. Qed.

(** Two w-bit prefixes share an address iff the shorter contains the longer. *)
Lemma common_addr : forall w a1 l1 a2 l2 a, 0 <= l1 <= l2 -> l2 <= w ->
  in_prefix w a1 l1 a -> in_prefix w a2 l2 a -> in_prefix w a1 l1 a2.
Proof.
  intros w a1 l1 a2 l2 a H1 H2 Ha1 Ha2.
  assert (H : in_prefix w a2 l1 a) by (eapply in_prefix_shorter; eauto).
  unfold in_prefix in *. congruence.
Qed.

Definition good (e : eam) : Prop := wt_eam e /\ legal e.

Lemma good_facts : forall e, good e ->
  is_u128 (p6_addr (e_p6 e)) /\ 0 <= p6_len (e_p6 e) <= 128 /\
  is_u32 (p4_addr (e_p4 e)) /\ 0 <= p4_len (e_p4 e) <= 32.
Proof.
  intros e ((Hw6 & Hw4) & (H1 & H2 & H3 & H4 & H5)). destruct Hw6 as [? [? _]], Hw4 as [? [? _]].
  split; [assumption|]. split; [split; assumption|]. split; [assumption|]. split; assumption.
Qed.

Lemma validate_prefixes_legal : forall e, wt_eam e ->
  (validate_prefixes e = OK /\ legal e) \/ (validate_prefixes e = Err EINVAL /\ ~ legal e).
Proof.
  intros e (H6 & H4). unfold validate_prefixes, legal.
  pose proof (prefix6_validate_spec _ H6) as V6. pose proof (prefix4_validate_spec _ H4) as V4.
  assert (E6 : prefix6_validate (e_p6 e) = OK \/ prefix6_validate (e_p6 e) = Err EINVAL).
  { unfold prefix6_validate. destruct (p6_len (e_p6 e) >? 128); auto. destruct existsb; auto. }
  assert (E4 : prefix4_validate (e_p4 e) = OK \/ prefix4_validate (e_p4 e) = Err EINVAL).
  { unfold prefix4_validate. destruct (p4_len (e_p4 e) >? 32); auto. destruct negb; auto. }
  destruct E6 as [E6|E6]; rewrite E6 in *.
  - destruct E4 as [E4|E4]; rewrite E4 in *.
    + destruct (Z.gtb_spec (32 - p4_len (e_p4 e)) (128 - p6_len (e_p6 e))); [right|left]; (split; [reflexivity|]); intuition lia.
    + right. split; [reflexivity|]. intros (X1 & X2 & X3 & X4 & X5). assert (Err EINVAL = OK) by (apply V4; auto). discriminate.
  - right. split; [reflexivity|]. intros (X1 & X2 & X3 & X4 & X5). assert (Err EINVAL = OK) by (apply V6; auto). discriminate.
Qed.

(** Equal keys of normalised prefixes are equal prefixes. *)
Lemma same_prefix6 : forall e e', good e -> good e' -> p6_len (e_p6 e) = p6_len (e_p6 e') ->
  in6 (e_p6 e') (p6_addr (e_p6 e)) -> e_p6 e = e_p6 e'.
Proof.
  intros e e' H H' El Hin. destruct H as (_ & H1 & H2 & _), H' as (_ & H1' & H2' & _).
  unfold in6, in_prefix in Hin. destruct (e_p6 e) as [a l], (e_p6 e') as [a' l']. cbn [p6_addr p6_len] in *. subst l'.
  f_equal. assert (0 < 2 ^ (128 - l)) by (apply Z.pow_pos_nonneg; lia).
  rewrite (Z.div_mod a (2 ^ (128 - l))), (Z.div_mod a' (2 ^ (128 - l))) by lia. rewrite Hin, H2, H2'. reflexivity.
Qed.

Lemma same_prefix4 : forall e e', good e -> good e' -> p4_len (e_p4 e) = p4_len (e_p4 e') ->
  in4 (e_p4 e') (p4_addr (e_p4 e)) -> e_p4 e = e_p4 e'.
Proof.
  intros e e' H H' El Hin. destruct H as (_ & _ & _ & H1 & H2 & _), H' as (_ & _ & _ & H1' & H2' & _).
  unfold in4, in_prefix in Hin. destruct (e_p4 e) as [a l], (e_p4 e') as [a' l']. cbn [p4_addr p4_len] in *. subst l'.
  f_equal. assert (0 < 2 ^ (32 - l)) by (apply Z.pow_pos_nonneg; lia).
  rewrite (Z.div_mod a (2 ^ (32 - l))), (Z.div_mod a' (2 ^ (32 - l))) by lia. rewrite Hin, H2, H2'. reflexivity.
Qed.

Lemma key6_prefix : forall e p, good e -> is_u128 (p6_addr p) -> 0 <= p6_len p ->
  prefix_of (key6 (e_p6 e)) (key6 p) <-> p6_len (e_p6 e) <= p6_len p /\ in6 (e_p6 e) (p6_addr p).
Proof.
  intros e p He Hp Hl. destruct (good_facts e He) as (A1 & A2 & A3 & A4). unfold is_u128 in *.
  unfold key6, in6. apply kbits_prefix; lia.
Qed.
Lemma key4_prefix : forall e p, good e -> is_u32 (p4_addr p) -> 0 <= p4_len p ->
  prefix_of (key4 (e_p4 e)) (key4 p) <-> p4_len (e_p4 e) <= p4_len p /\ in4 (e_p4 e) (p4_addr p).
Proof.
  intros e p He Hp Hl. destruct (good_facts e He) as (A1 & A2 & A3 & A4). unfold is_u32 in *.
  unfold key4, in4. apply kbits_prefix; lia.
Qed.
Lemma akey6_prefix : forall e a, good e -> is_u128 a ->
  prefix_of (key6 (e_p6 e)) (akey6 a) <-> in6 (e_p6 e) a.
Proof.
  intros e a He Ha. change (akey6 a) with (key6 (P6 a 128)). rewrite key6_prefix; auto; cbn; [|lia].
  destruct (good_facts e He) as (A1 & A2 & A3 & A4). intuition lia.
Qed.
Lemma akey4_prefix : forall e a, good e -> is_u32 a ->
  prefix_of (key4 (e_p4 e)) (akey4 a) <-> in4 (e_p4 e) a.
Proof.
  intros e a He Ha. change (akey4 a) with (key4 (P4 a 32)). rewrite key4_prefix; auto; cbn; [|lia].
  destruct (good_facts e He) as (A1 & A2 & A3 & A4). intuition lia.
Qed.

Lemma overlap6_keys : forall e e', good e -> good e' ->
  overlap (key6 (e_p6 e)) (key6 (e_p6 e')) <-> overlap6 (e_p6 e) (e_p6 e').
Proof.
  intros e e' He He'. destruct (good_facts e He) as (A1 & A2 & A3 & A4). destruct (good_facts e' He') as (B1 & B2 & B3 & B4).
  unfold overlap. rewrite key6_prefix, key6_prefix by (auto; lia). split.
  - intros [(H1 & H2)|(H1 & H2)].
    + exists (p6_addr (e_p6 e')). repeat split; auto; apply B1.
    + exists (p6_addr (e_p6 e)). repeat split; auto; apply A1.
  - intros (a & Ha & H1 & H2). unfold in6 in *.
    destruct (Z_le_gt_dec (p6_len (e_p6 e)) (p6_len (e_p6 e'))); [left|right]; (split; [lia|]).
    + eapply common_addr; [| |exact H1|exact H2]; lia.
    + eapply common_addr; [| |exact H2|exact H1]; lia.
Qed.
Lemma overlap4_keys : forall e e', good e -> good e' ->
  overlap (key4 (e_p4 e)) (key4 (e_p4 e')) <-> overlap4 (e_p4 e) (e_p4 e').
Proof.
  intros e e' He He'. destruct (good_facts e He) as (A1 & A2 & A3 & A4). destruct (good_facts e' He') as (B1 & B2 & B3 & B4).
  unfold overlap. rewrite key4_prefix, key4_prefix by (auto; lia). split.
  - intros [(H1 & H2)|(H1 & H2)].
    + exists (p4_addr (e_p4 e')). repeat split; auto; apply B3.
    + exists (p4_addr (e_p4 e)). repeat split; auto; apply A3.
  - intros (a & Ha & H1 & H2). unfold in4 in *.
    destruct (Z_le_gt_dec (p4_len (e_p4 e)) (p4_len (e_p4 e'))); [left|right]; (split; [lia|]).
    + eapply common_addr; [| |exact H1|exact H2]; lia.
    + eapply common_addr; [| |exact H2|exact H1]; lia.
Qed.

(** ** One trie of the pair *)
Definition tab (f : eam -> key) (tbl : list eam) : list (key * eam) := map (fun e => (f e, e)) tbl.

Lemma tab_in : forall f tbl k e, In (k, e) (tab f tbl) <-> In e tbl /\ k = f e.
Proof.
  intros f tbl k e. unfold tab. rewrite in_map_iff. split.
  - intros (e' & [= <- <-] & H). auto.
  - intros (H & ->). exists e. auto.
Qed.
Lemma tab_keys : forall f tbl k, In k (map fst (tab f tbl)) <-> exists e, In e tbl /\ k = f e.
Proof.
  intros f tbl k. unfold tab. rewrite map_map. cbn [fst]. rewrite in_map_iff. split; intros (e & H1 & H2); exists e; auto.
Qed.

Lemma add_fam : forall f (t : trie eam) tbl e ok1 ok2, Inv t (tab f tbl) ->
  (forall e', In e' tbl -> ~ overlap (f e) (f e')) ->
  exists r t', rtrie_add t ok1 ok2 (f e) e = Ok (r, t') /\
    ((r = OK /\ Inv t' (tab f (e :: tbl))) \/ (r = Err ENOMEM /\ ok1 && ok2 = false /\ Inv t' (tab f tbl))).
Proof.
  intros f t tbl e ok1 ok2 Hinv Hno.
  destruct (add_ok t (tab f tbl) ok1 ok2 (f e) e Hinv) as (r & t' & tbl' & E & Hs & Hi).
  { intros k' Hk Ho. apply tab_keys in Hk. destruct Hk as (e' & He' & ->). exfalso. eapply Hno; eauto. }
  exists r, t'. split; [exact E|]. inversion Hs; subst.
  - left. split; [reflexivity|]. eapply Inv_perm; [exact Hi|]. symmetry. assumption.
  - exfalso. match goal with H : In (f e) _ |- _ => apply tab_keys in H; destruct H as (e' & He' & Ek) end.
    apply (Hno e' He'). rewrite <- Ek. left. apply prefix_refl.
  - right. auto.
Qed.

Lemma rm_fam : forall f (t : trie eam) l1 e l2 ok, Inv t (tab f (l1 ++ e :: l2)) ->
  (forall e', In e' (l1 ++ l2) -> f e' <> f e) ->
  exists t', rtrie_rm t ok (f e) = Ok (OK, t') /\ Inv t' (tab f (l1 ++ l2)).
Proof.
  intros f t l1 e l2 ok Hinv Hne.
  destruct (rm_ok t _ ok (f e) Hinv) as (r & t' & tbl' & E & Hs & Hi).
  assert (Hp : Permutation (tab f (l1 ++ e :: l2)) ((f e, e) :: tab f (l1 ++ l2))).
  { unfold tab. rewrite !map_app. cbn [map]. symmetry. apply Permutation_middle. }
  inversion Hs; subst.
  - exists t'. split; [exact E|]. eapply Inv_perm; [exact Hi|].
    match goal with H : Permutation (tab f _) ((f e, ?v) :: tbl') |- _ => rename H into Hp2; rename v into v0 end.
    assert (v0 = e).
    { assert (Hin : In (f e, v0) ((f e, e) :: tab f (l1 ++ l2))).
      { eapply Permutation_in; [exact Hp|]. eapply Permutation_in; [symmetry; exact Hp2|]. left. reflexivity. }
      destruct Hin as [[= <-]|Hin]; [reflexivity|]. apply tab_in in Hin. destruct Hin as [Hin Ek].
      exfalso. eapply Hne; eauto. }
    subst v0. rewrite Hp2 in Hp. eapply Permutation_cons_inv. exact Hp.
  - exfalso. match goal with H : ~ In (f e) _ |- _ => apply H end. apply tab_keys. exists e. split; auto. apply in_or_app. right. left. reflexivity.
Qed.

(** ** The pair *)
Definition disj (a b : eam) : Prop := ~ overlap6 (e_p6 a) (e_p6 b) /\ ~ overlap4 (e_p4 a) (e_p4 b).

Lemma disj_sym : forall a b, disj a b -> disj b a.
Proof.
  intros a b [H1 H2]. split; intros (x & Hx & Ha & Hb); [apply H1|apply H2]; exists x; auto.
Qed.

Definition k6 (e : eam) := key6 (e_p6 e).
Definition k4 (e : eam) := key4 (e_p4 e).

Definition EInv (t : eamt) (tbl : list eam) : Prop :=
  Inv (trie6 t) (tab k6 tbl) /\ Inv (trie4 t) (tab k4 tbl) /\
  ecount t = u64 (Z.of_nat (length tbl)) /\ Forall good tbl /\ disjoint_entries tbl.

Lemma fop_perm : forall (R : eam -> eam -> Prop) l l', (forall a b, R a b -> R b a) ->
  Permutation l l' -> ForallOrdPairs R l -> ForallOrdPairs R l'.
Proof.
  intros R l l' Hsym Hp. induction Hp; intros H.
  - exact H.
  - inversion H; subst. constructor; [|auto]. eapply Permutation_Forall; eauto.
  - inversion H as [|? ? H1 H2]; subst. inversion H2 as [|? ? H3 H4]; subst. inversion H1; subst.
    constructor; [constructor; auto|]. constructor; auto.
  - auto.
Qed.

Lemma disjoint_perm : forall l l', Permutation l l' -> disjoint_entries l -> disjoint_entries l'.
Proof. intros l l' Hp. apply fop_perm; auto. apply disj_sym. Qed.

Lemma EInv_perm : forall t l l', EInv t l -> Permutation l l' -> EInv t l'.
Proof.
  intros t l l' (H1 & H2 & H3 & H4 & H5) Hp. repeat split.
  - eapply Inv_perm; [exact H1|]. unfold tab. apply Permutation_map. exact Hp.
  - eapply Inv_perm; [exact H2|]. unfold tab. apply Permutation_map. exact Hp.
  - rewrite H3. rewrite (Permutation_length Hp). reflexivity.
  - eapply Permutation_Forall; eauto.
  - eapply disjoint_perm; eauto.
Qed.

Lemma disjoint_split : forall l1 e l2, disjoint_entries (l1 ++ e :: l2) -> forall e', In e' (l1 ++ l2) -> disj e e'.
Proof.
  intros l1 e l2 H e' Hin.
  assert (H' : disjoint_entries (e :: l1 ++ l2)) by (eapply disjoint_perm; [symmetry; apply Permutation_middle|exact H]).
  inversion H' as [|? ? H1 H2]; subst. rewrite Forall_forall in H1. apply H1. exact Hin.
Qed.

Lemma disj_keys : forall e e', good e -> good e' -> disj e e' -> k6 e' <> k6 e /\ k4 e' <> k4 e.
Proof.
  intros e e' He He' [H6 H4]. split; intros E.
  - apply H6. apply overlap6_keys; auto. fold (k6 e) (k6 e'). rewrite E. left. apply prefix_refl.
  - apply H4. apply overlap4_keys; auto. fold (k4 e) (k4 e'). rewrite E. left. apply prefix_refl.
Qed.

(** Lookups *)
Lemma find6 : forall t tbl a, EInv t tbl -> is_u128 a ->
  exists r, rtrie_find (trie6 t) (akey6 a) = Ok r /\ lpm6 tbl a r.
Proof.
  intros t tbl a (H6 & _ & _ & Hg & _) Ha. rewrite Forall_forall in Hg.
  destruct (find_ok _ _ (akey6 a) H6) as (r & E & Hm). exists r. split; [exact E|].
  destruct r as [e|]; cbn [longest_match lpm6] in *.
  - destruct Hm as (k & Hin & Hp & Hmax). apply tab_in in Hin. destruct Hin as [Hin ->]. unfold k6 in *.
    split; [exact Hin|]. split; [apply akey6_prefix in Hp; auto|].
    intros e' Hin' Ha'. specialize (Hmax (k6 e') e').
    assert (Hl : (length (k6 e') <= length (key6 (e_p6 e)))%nat).
    { apply Hmax; [apply tab_in; auto|]. apply akey6_prefix; auto. }
    unfold k6, key6 in Hl. rewrite !kbits_length in Hl.
    destruct (good_facts e (Hg e Hin)) as (_ & B & _). destruct (good_facts e' (Hg e' Hin')) as (_ & B' & _). lia.
  - intros e Hin Ha'. apply (Hm (k6 e) e); [apply tab_in; auto|]. apply akey6_prefix; auto.
Qed.

Lemma find4 : forall t tbl a, EInv t tbl -> is_u32 a ->
  exists r, rtrie_find (trie4 t) (akey4 a) = Ok r /\ lpm4 tbl a r.
Proof.
  intros t tbl a (_ & H4 & _ & Hg & _) Ha. rewrite Forall_forall in Hg.
  destruct (find_ok _ _ (akey4 a) H4) as (r & E & Hm). exists r. split; [exact E|].
  destruct r as [e|]; cbn [longest_match lpm4] in *.
  - destruct Hm as (k & Hin & Hp & Hmax). apply tab_in in Hin. destruct Hin as [Hin ->]. unfold k4 in *.
    split; [exact Hin|]. split; [apply akey4_prefix in Hp; auto|].
    intros e' Hin' Ha'. specialize (Hmax (k4 e') e').
    assert (Hl : (length (k4 e') <= length (key4 (e_p4 e)))%nat).
    { apply Hmax; [apply tab_in; auto|]. apply akey4_prefix; auto. }
    unfold k4, key4 in Hl. rewrite !kbits_length in Hl.
    destruct (good_facts e (Hg e Hin)) as (_ & _ & _ & B). destruct (good_facts e' (Hg e' Hin')) as (_ & _ & _ & B'). lia.
  - intros e Hin Ha'. apply (Hm (k4 e) e); [apply tab_in; auto|]. apply akey4_prefix; auto.
Qed.

Lemma exact6 : forall t tbl p, EInv t tbl -> wt_prefix6 p ->
  exists r, get_exact6 t p = Ok r /\
    match r with
    | Some e => In e tbl /\ p6_len p = p6_len (e_p6 e) /\ in6 (e_p6 e) (p6_addr p)
    | None => forall e, In e tbl -> ~ (p6_len p = p6_len (e_p6 e) /\ in6 (e_p6 e) (p6_addr p))
    end.
Proof.
  intros t tbl p (H6 & _ & _ & Hg & _) [Ha [Hl _]]. rewrite Forall_forall in Hg. unfold get_exact6.
  destruct (find_ok _ _ (key6 p) H6) as (r & E & Hm). rewrite E. cbn [bind].
  destruct r as [e|]; cbn [longest_match] in *.
  - destruct Hm as (k & Hin & Hp & Hmax). apply tab_in in Hin. destruct Hin as [Hin ->]. unfold k6 in *.
    apply key6_prefix in Hp; auto. destruct Hp as [Hle Hin6].
    destruct (Z.eqb_spec (p6_len (e_p6 e)) (p6_len p)) as [El|El]; eexists; (split; [reflexivity|]).
    + split; [exact Hin|]. split; [symmetry; exact El|assumption].
    + intros e' Hin' [El' Hin6'].
      assert (Hl' : (length (k6 e') <= length (key6 (e_p6 e)))%nat).
      { apply (Hmax (k6 e') e'); [apply tab_in; auto|]. apply key6_prefix; auto. split; [lia|auto]. }
      unfold k6, key6 in Hl'. rewrite !kbits_length in Hl'.
      destruct (good_facts e (Hg e Hin)) as (_ & B & _). destruct (good_facts e' (Hg e' Hin')) as (_ & B' & _). lia.
  - eexists. split; [reflexivity|]. intros e Hin [El Hin6]. apply (Hm (k6 e) e); [apply tab_in; auto|].
    apply key6_prefix; auto. split; [lia|auto].
Qed.

Lemma exact4 : forall t tbl p, EInv t tbl -> wt_prefix4 p ->
  exists r, get_exact4 t p = Ok r /\
    match r with
    | Some e => In e tbl /\ p4_len p = p4_len (e_p4 e) /\ in4 (e_p4 e) (p4_addr p)
    | None => forall e, In e tbl -> ~ (p4_len p = p4_len (e_p4 e) /\ in4 (e_p4 e) (p4_addr p))
    end.
Proof.
  intros t tbl p (_ & H4 & _ & Hg & _) [Ha [Hl _]]. rewrite Forall_forall in Hg. unfold get_exact4.
  destruct (find_ok _ _ (key4 p) H4) as (r & E & Hm). rewrite E. cbn [bind].
  destruct r as [e|]; cbn [longest_match] in *.
  - destruct Hm as (k & Hin & Hp & Hmax). apply tab_in in Hin. destruct Hin as [Hin ->]. unfold k4 in *.
    apply key4_prefix in Hp; auto. destruct Hp as [Hle Hin4].
    destruct (Z.eqb_spec (p4_len (e_p4 e)) (p4_len p)) as [El|El]; eexists; (split; [reflexivity|]).
    + split; [exact Hin|]. split; [symmetry; exact El|assumption].
    + intros e' Hin' [El' Hin4'].
      assert (Hl' : (length (k4 e') <= length (key4 (e_p4 e)))%nat).
      { apply (Hmax (k4 e') e'); [apply tab_in; auto|]. apply key4_prefix; auto. split; [lia|auto]. }
      unfold k4, key4 in Hl'. rewrite !kbits_length in Hl'.
      destruct (good_facts e (Hg e Hin)) as (_ & _ & _ & B). destruct (good_facts e' (Hg e' Hin')) as (_ & _ & _ & B'). lia.
  - eexists. split; [reflexivity|]. intros e Hin [El Hin4]. apply (Hm (k4 e) e); [apply tab_in; auto|].
    apply key4_prefix; auto. split; [lia|auto].
Qed.

(** validate_overlapping on a tame addition *)
Lemma validate_overlapping_ok : forall t tbl e force m, EInv t tbl -> good e -> tame tbl (EAdd e force m) ->
  (validate_overlapping t e force = Ok OK /\ forall e', In e' tbl -> disj e e') \/
  (validate_overlapping t e force = Ok (Err EEXIST) /\ exists e', In e' tbl /\
     ((e_p6 e' = e_p6 e \/ e_p4 e' = e_p4 e) \/
      (force = false /\ (overlap6 (e_p6 e) (e_p6 e') \/ overlap4 (e_p4 e) (e_p4 e'))))).
Proof.
  intros t tbl e force m Hinv He Ht. cbn [tame] in Ht.
  pose proof Hinv as (_ & _ & _ & Hg & _). rewrite Forall_forall in Hg.
  destruct (good_facts e He) as (A1 & A2 & A3 & A4).
  destruct (find6 t tbl (p6_addr (e_p6 e)) Hinv A1) as (r6 & E6 & M6).
  destruct (find4 t tbl (p4_addr (e_p4 e)) Hinv A3) as (r4 & E4 & M4).
  unfold validate_overlapping. rewrite E6. cbn [bind].
  destruct r6 as [o|]; cbn [lpm6] in M6.
  { right. destruct M6 as (Hin & Ho & _). destruct (Ht o Hin) as (T1 & T2 & T3).
    destruct (good_facts o (Hg o Hin)) as (B1 & B2 & B3 & B4).
    unfold collision6. destruct (Z.eqb_spec (p6_len (e_p6 e)) (p6_len (e_p6 o))) as [El|El].
    - split; [reflexivity|]. exists o. split; [exact Hin|]. left. left. symmetry. apply same_prefix6; auto.
    - destruct force.
      + exfalso. destruct (T3 eq_refl) as [T6 _]. unfold wider6, in6 in *.
        destruct (Z_lt_ge_dec (p6_len (e_p6 o)) (p6_len (e_p6 e))); [apply T6; auto|].
        apply T1. split; [lia|]. apply in_prefix_sym. eapply in_prefix_shorter; [| |exact Ho]; lia.
      + split; [reflexivity|]. exists o. split; [exact Hin|]. right. split; [reflexivity|]. left.
        exists (p6_addr (e_p6 e)). repeat split; auto; apply A1. }
  assert (N6 : forall e', In e' tbl -> ~ overlap6 (e_p6 e) (e_p6 e')).
  { intros e' Hin' Ho. destruct (good_facts e' (Hg e' Hin')) as (B1 & B2 & B3 & B4).
    destruct Ho as (a & Ha & O1 & O2). destruct (Ht e' Hin') as (T1 & T2 & T3). unfold wider6, in6 in *.
    destruct (Z_lt_ge_dec (p6_len (e_p6 e)) (p6_len (e_p6 e'))).
    - apply T1. split; [lia|]. eapply common_addr; [| |exact O1|exact O2]; lia.
    - apply (M6 e' Hin'). eapply common_addr; [| |exact O2|exact O1]; lia. }
  rewrite E4. cbn [bind].
  destruct r4 as [o|]; cbn [lpm4] in M4.
  { right. destruct M4 as (Hin & Ho & _). destruct (Ht o Hin) as (T1 & T2 & T3).
    destruct (good_facts o (Hg o Hin)) as (B1 & B2 & B3 & B4).
    unfold collision4. destruct (Z.eqb_spec (p4_len (e_p4 e)) (p4_len (e_p4 o))) as [El|El].
    - split; [reflexivity|]. exists o. split; [exact Hin|]. left. right. symmetry. apply same_prefix4; auto.
    - destruct force.
      + exfalso. destruct (T3 eq_refl) as [_ T4]. unfold wider4, in4 in *.
        destruct (Z_lt_ge_dec (p4_len (e_p4 o)) (p4_len (e_p4 e))); [apply T4; auto|].
        apply T2. split; [lia|]. apply in_prefix_sym. eapply in_prefix_shorter; [| |exact Ho]; lia.
      + split; [reflexivity|]. exists o. split; [exact Hin|]. right. split; [reflexivity|]. right.
        exists (p4_addr (e_p4 e)). repeat split; auto; apply A3. }
  left. split; [reflexivity|]. intros e' Hin'. split; [auto|].
  intros Ho. destruct (good_facts e' (Hg e' Hin')) as (B1 & B2 & B3 & B4).
  destruct Ho as (a & Ha & O1 & O2). destruct (Ht e' Hin') as (T1 & T2 & T3). unfold wider4, in4 in *.
  destruct (Z_lt_ge_dec (p4_len (e_p4 e)) (p4_len (e_p4 e'))).
  - apply T2. split; [lia|]. eapply common_addr; [| |exact O1|exact O2]; lia.
  - apply (M4 e' Hin'). eapply common_addr; [| |exact O2|exact O1]; lia.
Qed.

Lemma u64_succ : forall n, u64 (u64 (Z.of_nat n) + 1) = u64 (Z.of_nat (S n)).
Proof. intros. unfold u64. rewrite Z.add_mod_idemp_l by lia. f_equal. lia. Qed.
Lemma u64_pred : forall n, u64 (u64 (Z.of_nat (S n)) - 1) = u64 (Z.of_nat n).
Proof. intros. unfold u64. rewrite Zminus_mod_idemp_l. f_equal. lia. Qed.

Lemma eam_add_ok : forall t tbl e force m, EInv t tbl -> wt_eam e -> tame tbl (EAdd e force m) ->
  exists r t' tbl', eamt_add t e force m = Ok (r, t') /\ espec_step tbl (EAdd e force m) r tbl' /\ EInv t' tbl'.
Proof.
  intros t tbl e force m Hinv Hwt Ht. unfold eamt_add.
  destruct (validate_prefixes_legal e Hwt) as [(-> & Hl)|(-> & Hl)].
  2:{ exists (Err EINVAL), t, tbl. split; [reflexivity|]. split; [apply ESAddIllegal; auto|auto]. }
  assert (He : good e) by (split; auto).
  destruct (validate_overlapping_ok t tbl e force m Hinv He Ht) as [(-> & Hd)|(-> & e' & Hin & Hx)]; cbn [bind].
  2:{ exists (Err EEXIST), t, tbl. split; [reflexivity|]. split; [eapply ESAddExists; eauto|auto]. }
  pose proof Hinv as (H6 & H4 & Hc & Hg & Hdis). pose proof Hg as Hg'. rewrite Forall_forall in Hg'.
  assert (D6 : forall e', In e' tbl -> ~ overlap (k6 e) (k6 e')).
  { intros e' Hin' Ho. apply (proj1 (Hd e' Hin')). apply overlap6_keys; auto. }
  assert (D4 : forall e', In e' tbl -> ~ overlap (k4 e) (k4 e')).
  { intros e' Hin' Ho. apply (proj2 (Hd e' Hin')). apply overlap4_keys; auto. }
  destruct (add_fam k6 (trie6 t) tbl e (m6a m) (m6b m) H6 D6) as (r6 & t6 & E6 & C6).
  fold (k6 e). rewrite E6. cbn [bind fst snd trie6 trie4 ecount].
  destruct C6 as [(-> & I6)|(-> & Hm & I6)].
  2:{ exists (Err ENOMEM), (Eamt t6 (trie4 t) (ecount t)), tbl. split; [reflexivity|]. split.
      - apply ESAddNoMem. unfold mem_ok. intros (X1 & X2 & _). rewrite X1, X2 in Hm. discriminate.
      - repeat split; auto. }
  destruct (add_fam k4 (trie4 t) tbl e (m4a m) (m4b m) H4 D4) as (r4 & t4 & E4 & C4).
  fold (k4 e). rewrite E4. cbn [bind fst snd trie6 trie4 ecount].
  destruct C4 as [(-> & I4)|(-> & Hm & I4)].
  - exists OK. eexists. exists (e :: tbl). split; [reflexivity|]. split.
    + apply ESAdd; auto.
      intros e' Hin'. split; intros E; [apply (proj1 (Hd e' Hin'))|apply (proj2 (Hd e' Hin'))]; rewrite E.
      * exists (p6_addr (e_p6 e)). destruct (good_facts e He) as (X1 & X2 & X3 & X4). repeat split; auto; apply X1.
      * exists (p4_addr (e_p4 e)). destruct (good_facts e He) as (X1 & X2 & X3 & X4). repeat split; auto; apply X3.
    + split; [exact I6|]. split; [exact I4|]. cbn [ecount length]. split; [rewrite Hc; apply u64_succ|].
      split; [constructor; auto|]. constructor; auto. apply Forall_forall. exact Hd.
  - destruct (rm_fam k6 t6 [] e tbl (mrev m) I6) as (t6' & E6' & I6').
    { intros e' Hin'. apply disj_keys; auto. }
    rewrite E6'. cbn [bind snd].
    exists (Err ENOMEM). eexists. exists tbl. split; [reflexivity|]. split.
    + apply ESAddNoMem. unfold mem_ok. intros (_ & _ & X1 & X2). rewrite X1, X2 in Hm. discriminate.
    + repeat split; auto.
Qed.

Lemma eam__rm_ok : forall t l1 e l2 p6 p4 m1 m2, EInv t (l1 ++ e :: l2) ->
  key6 p6 = k6 e -> key4 p4 = k4 e ->
  exists t', eamt__rm t p6 p4 m1 m2 = Ok (OK, t') /\ EInv t' (l1 ++ l2).
Proof.
  intros t l1 e l2 p6 p4 m1 m2 Hinv E6 E4.
  assert (Hinv2 : EInv t (e :: l1 ++ l2)) by (eapply EInv_perm; [exact Hinv|symmetry; apply Permutation_middle]).
  pose proof Hinv as (H6 & H4 & Hc & Hg & Hd).
  pose proof Hinv2 as (_ & _ & Hc2 & Hg2 & Hd2). apply Forall_cons_iff in Hg2. destruct Hg2 as [He Hg2].
  inversion Hd2 as [|? ? D1 D2]; subst. rewrite Forall_forall in D1, Hg2.
  unfold eamt__rm. rewrite E6, E4.
  destruct (rm_fam k6 (trie6 t) l1 e l2 m1 H6) as (t6 & R6 & I6).
  { intros e' Hin. apply disj_keys; auto. apply D1. exact Hin. }
  destruct (rm_fam k4 (trie4 t) l1 e l2 m2 H4) as (t4 & R4 & I4).
  { intros e' Hin. apply disj_keys; auto. apply D1. exact Hin. }
  rewrite R6. cbn [bind fst snd trie4 trie6 ecount]. rewrite R4. cbn [bind fst snd trie4 trie6 ecount].
  eexists. split; [reflexivity|]. split; [exact I6|]. split; [exact I4|]. cbn [ecount]. split.
  - rewrite Hc2. cbn [length]. apply u64_pred.
  - split; [apply Forall_forall; exact Hg2|exact D2].
Qed.

Lemma key6_named : forall e p, good e -> wt_prefix6 p -> p6_len p = p6_len (e_p6 e) -> in6 (e_p6 e) (p6_addr p) -> key6 p = k6 e.
Proof.
  intros e p He [Ha [Hl _]] El Hin.
  assert (Hp : prefix_of (k6 e) (key6 p)) by (apply key6_prefix; auto; split; [lia|auto]).
  apply prefix_of_firstn in Hp. destruct Hp as [_ Hp]. unfold k6, key6 in *. rewrite !kbits_length in Hp.
  rewrite <- El in Hp. rewrite kbits_firstn, Z2Nat.id in Hp by lia. rewrite Hp, El. reflexivity.
Qed.
Lemma key4_named : forall e p, good e -> wt_prefix4 p -> p4_len p = p4_len (e_p4 e) -> in4 (e_p4 e) (p4_addr p) -> key4 p = k4 e.
Proof.
  intros e p He [Ha [Hl _]] El Hin.
  assert (Hp : prefix_of (k4 e) (key4 p)) by (apply key4_prefix; auto; split; [lia|auto]).
  apply prefix_of_firstn in Hp. destruct Hp as [_ Hp]. unfold k4, key4 in *. rewrite !kbits_length in Hp.
  rewrite <- El in Hp. rewrite kbits_firstn, Z2Nat.id in Hp by lia. rewrite Hp, El. reflexivity.
Qed.

Lemma two_named6 : forall e e' p, good e -> good e' -> is_u128 (p6_addr p) ->
  in6 (e_p6 e) (p6_addr p) -> in6 (e_p6 e') (p6_addr p) -> disj e e' -> False.
Proof. intros e e' p He He' Hp H1 H2 [Hd _]. apply Hd. exists (p6_addr p). auto. Qed.
Lemma two_named4 : forall e e' p, good e -> good e' -> is_u32 (p4_addr p) ->
  in4 (e_p4 e) (p4_addr p) -> in4 (e_p4 e') (p4_addr p) -> disj e e' -> False.
Proof. intros e e' p He He' Hp H1 H2 [_ Hd]. apply Hd. exists (p4_addr p). auto. Qed.

Lemma eam_entry_equals_spec : forall a b, eamt_entry_equals a b = true <-> a = b.
Proof.
  intros [[a6 l6] [a4 l4]] [[b6 m6] [b4 m4]]. unfold eamt_entry_equals, prefix6_equals, prefix4_equals. cbn.
  rewrite !andb_true_iff, !Z.eqb_eq. split; [intros ((-> & ->) & -> & ->); reflexivity|].
  intros [= -> -> -> ->]. auto.
Qed.

Lemma eam_rm_ok : forall t tbl o6 o4 m1 m2, EInv t tbl -> wt_op (ERm o6 o4 m1 m2) ->
  exists r t' tbl', eamt_rm t o6 o4 m1 m2 = Ok (r, t') /\ espec_step tbl (ERm o6 o4 m1 m2) r tbl' /\ EInv t' tbl'.
Proof.
  intros t tbl o6 o4 m1 m2 Hinv (W6 & W4).
  pose proof Hinv as (_ & _ & _ & Hg & Hdis). rewrite Forall_forall in Hg.
  (* removing a named entry *)
  assert (Hrm : forall e p6 p4, In e tbl -> names o6 o4 e -> key6 p6 = k6 e -> key4 p4 = k4 e ->
    exists t' tbl', eamt__rm t p6 p4 m1 m2 = Ok (OK, t') /\ espec_step tbl (ERm o6 o4 m1 m2) OK tbl' /\ EInv t' tbl').
  { intros e p6 p4 Hin Hn E6 E4. destruct (in_split _ _ Hin) as (l1 & l2 & ->).
    destruct (eam__rm_ok t l1 e l2 p6 p4 m1 m2 Hinv E6 E4) as (t' & E & Hi).
    exists t', (l1 ++ l2). split; [exact E|]. split; [|exact Hi].
    apply ESRm with (e := e); [exact Hn|symmetry; apply Permutation_middle|].
    intros e' Hin' Hn'. pose proof (disjoint_split l1 e l2 Hdis e' Hin') as Hd.
    assert (Ge' : good e') by (apply Hg; apply in_app_or in Hin'; apply in_or_app; cbn; tauto).
    destruct Hn as (Hne & N6 & N4), Hn' as (_ & N6' & N4'). destruct o6 as [q6|].
    - destruct (N6 q6 eq_refl), (N6' q6 eq_refl), (W6 q6 eq_refl).
      eapply (two_named6 e e' q6); eauto.
    - destruct o4 as [q4|]; [|destruct Hne; congruence].
      destruct (N4 q4 eq_refl), (N4' q4 eq_refl), (W4 q4 eq_refl).
      eapply (two_named4 e e' q4); eauto. }
  assert (Hself6 : forall e, In e tbl -> key6 (e_p6 e) = k6 e) by reflexivity.
  destruct o6 as [q6|], o4 as [q4|]; cbn [eamt_rm].
  - destruct (exact6 t tbl q6 Hinv (W6 q6 eq_refl)) as (r6 & E6 & X6). rewrite E6. cbn [bind].
    destruct r6 as [a|].
    + destruct X6 as (Ina & La & Ia).
      destruct (exact4 t tbl q4 Hinv (W4 q4 eq_refl)) as (r4 & E4 & X4). rewrite E4. cbn [bind].
      destruct r4 as [b|].
      * destruct X4 as (Inb & Lb & Ib). destruct (eamt_entry_equals a b) eqn:Eab.
        -- apply eam_entry_equals_spec in Eab. subst b.
           destruct (Hrm a q6 q4 Ina) as (t' & tbl' & E & S & I).
           { split; [left; discriminate|]. split; intros p [= <-]; auto. }
           { apply key6_named; auto. } { apply key4_named; auto. }
           exists OK, t', tbl'. auto.
        -- exists (Err ESRCH), t, tbl. split; [reflexivity|]. split; [|exact Hinv].
           apply ESRmNone; [left; discriminate|]. intros e Hin (_ & N6 & N4).
           destruct (N6 q6 eq_refl) as [L6 I6], (N4 q4 eq_refl) as [L4 I4].
           assert (e = a).
           { destruct (in_split _ _ Hin) as (l1 & l2 & El). rewrite El in *. apply in_app_or in Ina.
             destruct Ina as [Ina|[->|Ina]]; auto; exfalso;
             (eapply (two_named6 e a q6); eauto; [apply Hg; apply in_or_app; cbn; auto|apply (W6 q6 eq_refl)|];
              eapply disjoint_split; [exact Hdis|apply in_or_app; auto]). }
           assert (e = b).
           { destruct (in_split _ _ Hin) as (l1 & l2 & El). rewrite El in *. apply in_app_or in Inb.
             destruct Inb as [Inb|[->|Inb]]; auto; exfalso;
             (eapply (two_named4 e b q4); eauto; [apply Hg; apply in_or_app; cbn; auto|apply (W4 q4 eq_refl)|];
              eapply disjoint_split; [exact Hdis|apply in_or_app; auto]). }
           subst. subst. rewrite (proj2 (eam_entry_equals_spec b b) eq_refl) in Eab. discriminate.
      * exists (Err ESRCH), t, tbl. split; [reflexivity|]. split; [|exact Hinv].
        apply ESRmNone; [left; discriminate|]. intros e Hin (_ & _ & N4). exact (X4 e Hin (N4 q4 eq_refl)).
    + exists (Err ESRCH), t, tbl. split; [reflexivity|]. split; [|exact Hinv].
      apply ESRmNone; [left; discriminate|]. intros e Hin (_ & N6 & _). exact (X6 e Hin (N6 q6 eq_refl)).
  - destruct (exact6 t tbl q6 Hinv (W6 q6 eq_refl)) as (r6 & E6 & X6). rewrite E6. cbn [bind].
    destruct r6 as [a|].
    + destruct X6 as (Ina & La & Ia). destruct (Hrm a q6 (e_p4 a) Ina) as (t' & tbl' & E & S & I).
      { split; [left; discriminate|]. split; intros p [= <-]; auto. }
      { apply key6_named; auto. } { reflexivity. }
      exists OK, t', tbl'. auto.
    + exists (Err ESRCH), t, tbl. split; [reflexivity|]. split; [|exact Hinv].
      apply ESRmNone; [left; discriminate|]. intros e Hin (_ & N6 & _). exact (X6 e Hin (N6 q6 eq_refl)).
  - destruct (exact4 t tbl q4 Hinv (W4 q4 eq_refl)) as (r4 & E4 & X4). rewrite E4. cbn [bind].
    destruct r4 as [a|].
    + destruct X4 as (Ina & La & Ia). destruct (Hrm a (e_p6 a) q4 Ina) as (t' & tbl' & E & S & I).
      { split; [right; discriminate|]. split; intros p [= <-]; auto. }
      { reflexivity. } { apply key4_named; auto. }
      exists OK, t', tbl'. auto.
    + exists (Err ESRCH), t, tbl. split; [reflexivity|]. split; [|exact Hinv].
      apply ESRmNone; [right; discriminate|]. intros e Hin (_ & _ & N4). exact (X4 e Hin (N4 q4 eq_refl)).
  - exists (Err EINVAL), t, tbl. split; [reflexivity|]. split; [constructor|exact Hinv].
Qed.

Lemma eam_step_ok : forall t tbl o, EInv t tbl -> wt_op o -> tame tbl o ->
  exists r t' tbl', eam_step t o = Ok (r, t') /\ espec_step tbl o r tbl' /\ EInv t' tbl'.
Proof.
  intros t tbl [e force m|o6 o4 m1 m2|] Hinv Hwt Ht; cbn [eam_step].
  - apply eam_add_ok; auto.
  - apply eam_rm_ok; auto.
  - exists OK, (eamt_flush t), []. split; [reflexivity|]. split; [constructor|].
    destruct Hinv as (H6 & H4 & _). split; [eapply flush_ok; exact H6|]. split; [eapply flush_ok; exact H4|].
    repeat split; constructor.
Qed.

Lemma eam_run_ok : forall ops t tbl, EInv t tbl -> tame_history tbl ops ->
  exists rs t' tbl', eam_run t ops = Ok (rs, t') /\ espec_run tbl ops rs tbl' /\ EInv t' tbl'.
Proof.
  induction ops as [|o ops IH]; intros t tbl Hinv Hno; cbn [tame_history eam_run] in *.
  - exists [], t, tbl. repeat split; auto; try apply Hinv. constructor.
  - destruct Hno as (Hwt & Ht & Hno).
    destruct (eam_step_ok t tbl o Hinv Hwt Ht) as (r & t1 & tbl1 & E1 & S1 & I1).
    destruct (IH t1 tbl1 I1 (Hno r tbl1 S1)) as (rs & t2 & tbl2 & E2 & S2 & I2).
    exists (r :: rs), t2, tbl2. rewrite E1. cbn [bind snd]. rewrite E2. cbn [bind fst snd].
    split; [reflexivity|]. split; [econstructor; eauto|auto].
Qed.

Lemma alloc_inv : EInv eamt_alloc [].
Proof. repeat split; try apply init_inv; constructor. Qed.
