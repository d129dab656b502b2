Require Import Verif.Base Verif.Addr_Model Verif.Addr_Spec Verif.Addr_Proofs.
Require Import Verif.Rtrie_Model Verif.Rtrie_Spec Verif.Rtrie_Proofs Verif.Rtrie_Steps Verif.Rtrie_Hist.
Require Import Verif.Eam_Model Verif.Eam_Spec Verif.Eam_Proofs Verif.Nest_Spec Verif.Nest_Trie Verif.Nest_Steps.

Local Ltac Zify.zify_post_hook ::= Z.div_mod_to_equations.

(** ** One trie of the pair *)
Lemma nadd_fam : forall f (t : trie eam) tbl e ok1 ok2, NInv t (tab f tbl) ->
  (forall e', In e' tbl -> f e' <> f e) -> (forall e', In e' tbl -> ~ prefix_of (f e) (f e')) ->
  exists r t', rtrie_add t ok1 ok2 (f e) e = Ok (r, t') /\
    ((r = OK /\ NInv t' (tab f (e :: tbl))) \/ (r = Err ENOMEM /\ ok1 && ok2 = false /\ NInv t' (tab f tbl))).
Proof.
  intros f t tbl e ok1 ok2 Hinv Hne Hno.
  destruct (nadd_ok t (tab f tbl) ok1 ok2 (f e) e Hinv) as (r & t' & tbl' & E & Hs & Hi).
  { intros k' Hk Hp. apply tab_keys in Hk. destruct Hk as (e' & He' & ->). exfalso. eapply Hno; eauto. }
  exists r, t'. split; [exact E|]. inversion Hs; subst.
  - left. split; [reflexivity|]. eapply NInv_perm; [exact Hi|]. symmetry. assumption.
  - exfalso. match goal with H : In (f e) _ |- _ => apply tab_keys in H; destruct H as (e' & He' & Ek) end.
    apply (Hne e' He'). auto.
  - right. auto.
Qed.

Lemma nrm_fam : forall f (t : trie eam) l1 e l2 ok, NInv t (tab f (l1 ++ e :: l2)) ->
  (forall e', In e' (l1 ++ l2) -> f e' <> f e) ->
  (forall a b, In a (l1 ++ l2) -> In b (l1 ++ l2) -> strict (f e) (f a) -> strict (f e) (f b) -> overlap (f a) (f b)) ->
  exists t', rtrie_rm t ok (f e) = Ok (OK, t') /\ NInv t' (tab f (l1 ++ l2)).
Proof.
  intros f t l1 e l2 ok Hinv Hne Hch.
  assert (Hback : forall a, In a (l1 ++ e :: l2) -> strict (f e) (f a) -> In a (l1 ++ l2)).
  { intros a Ha (_ & Hs). apply in_app_or in Ha. apply in_or_app. destruct Ha as [Ha|[Ha|Ha]]; auto. subst a. congruence. }
  destruct (nrm_ok t _ ok (f e) Hinv) as (r & t' & tbl' & E & Hs & Hi).
  { intros _ k1 k2 H1 H2 S1 S2. apply tab_keys in H1. apply tab_keys in H2.
    destruct H1 as (a & Ia & ->), H2 as (b & Ib & ->). apply Hch; auto. }
  assert (Hp : Permutation (tab f (l1 ++ e :: l2)) ((f e, e) :: tab f (l1 ++ l2))).
  { unfold tab. rewrite !map_app. cbn [map]. symmetry. apply Permutation_middle. }
  inversion Hs; subst.
  - exists t'. split; [exact E|]. eapply NInv_perm; [exact Hi|].
    match goal with H : Permutation (tab f _) ((f e, ?v) :: tbl') |- _ => rename H into Hp2; rename v into v0 end.
    assert (v0 = e).
    { assert (Hin : In (f e, v0) ((f e, e) :: tab f (l1 ++ l2))).
      { eapply Permutation_in; [exact Hp|]. eapply Permutation_in; [symmetry; exact Hp2|]. left. reflexivity. }
      destruct Hin as [[= <-]|Hin]; [reflexivity|]. apply tab_in in Hin. destruct Hin as [Hin Ek].
      exfalso. eapply Hne; eauto. }
    subst v0. rewrite Hp2 in Hp. eapply Permutation_cons_inv. exact Hp.
  - exfalso. match goal with H : ~ In (f e) _ |- _ => apply H end. apply tab_keys. exists e. split; auto. apply in_or_app. right. left. reflexivity.
Qed.

(** ** The pair *)
Definition NEInv (t : eamt) (tbl : list eam) : Prop :=
  NInv (trie6 t) (tab k6 tbl) /\ NInv (trie4 t) (tab k4 tbl) /\
  ecount t = u64 (Z.of_nat (length tbl)) /\ Forall good tbl /\ distinct_entries tbl.

Lemma distinct_perm : forall l l', Permutation l l' -> distinct_entries l -> distinct_entries l'.
Proof. intros l l' Hp. apply fop_perm; auto. intros a b (H1 & H2). split; congruence. Qed.

Lemma NEInv_perm : forall t l l', NEInv t l -> Permutation l l' -> NEInv t l'.
Proof.
  intros t l l' (H1 & H2 & H3 & H4 & H5) Hp. repeat split.
  - eapply NInv_perm; [exact H1|]. unfold tab. apply Permutation_map. exact Hp.
  - eapply NInv_perm; [exact H2|]. unfold tab. apply Permutation_map. exact Hp.
  - rewrite H3. rewrite (Permutation_length Hp). reflexivity.
  - eapply Permutation_Forall; eauto.
  - eapply distinct_perm; eauto.
Qed.

Lemma distinct_split : forall l1 e l2, distinct_entries (l1 ++ e :: l2) ->
  forall e', In e' (l1 ++ l2) -> e_p6 e' <> e_p6 e /\ e_p4 e' <> e_p4 e.
Proof.
  intros l1 e l2 H e' Hin.
  assert (H' : distinct_entries (e :: l1 ++ l2)) by (eapply distinct_perm; [symmetry; apply Permutation_middle|exact H]).
  inversion H' as [|? ? H1 H2]; subst. rewrite Forall_forall in H1. destruct (H1 e' Hin). split; congruence.
Qed.

Lemma k6_inj : forall e e', good e -> good e' -> k6 e = k6 e' -> e_p6 e = e_p6 e'.
Proof.
  intros e e' He He' E. destruct (good_facts e He) as (A1 & A2 & A3 & A4). destruct (good_facts e' He') as (B1 & B2 & B3 & B4).
  assert (Hp : prefix_of (k6 e') (k6 e)) by (rewrite E; apply prefix_refl).
  apply key6_prefix in Hp; auto; [|lia]. destruct Hp as (Hl & Hin). apply same_prefix6; auto.
  apply (f_equal (@length bool)) in E. unfold k6, key6 in E. rewrite !kbits_length in E. lia.
Qed.
Lemma k4_inj : forall e e', good e -> good e' -> k4 e = k4 e' -> e_p4 e = e_p4 e'.
Proof.
  intros e e' He He' E. destruct (good_facts e He) as (A1 & A2 & A3 & A4). destruct (good_facts e' He') as (B1 & B2 & B3 & B4).
  assert (Hp : prefix_of (k4 e') (k4 e)) by (rewrite E; apply prefix_refl).
  apply key4_prefix in Hp; auto; [|lia]. destruct Hp as (Hl & Hin). apply same_prefix4; auto.
  apply (f_equal (@length bool)) in E. unfold k4, key4 in E. rewrite !kbits_length in E. lia.
Qed.

Lemma strict_wider6 : forall e e', good e -> good e' -> strict (k6 e) (k6 e') -> wider6 (e_p6 e) (e_p6 e').
Proof.
  intros e e' He He' Hs. destruct (good_facts e He) as (A1 & A2 & A3 & A4). destruct (good_facts e' He') as (B1 & B2 & B3 & B4).
  pose proof (strict_len _ _ Hs) as L. unfold k6, key6 in L. rewrite !kbits_length in L.
  destruct Hs as (Hp & _). apply key6_prefix in Hp; auto; [|lia]. split; [lia|apply Hp].
Qed.
Lemma strict_wider4 : forall e e', good e -> good e' -> strict (k4 e) (k4 e') -> wider4 (e_p4 e) (e_p4 e').
Proof.
  intros e e' He He' Hs. destruct (good_facts e He) as (A1 & A2 & A3 & A4). destruct (good_facts e' He') as (B1 & B2 & B3 & B4).
  pose proof (strict_len _ _ Hs) as L. unfold k4, key4 in L. rewrite !kbits_length in L.
  destruct Hs as (Hp & _). apply key4_prefix in Hp; auto; [|lia]. split; [lia|apply Hp].
Qed.

(** Lookups *)
Lemma nfind6 : forall t tbl a, NEInv t tbl -> is_u128 a ->
  exists r, rtrie_find (trie6 t) (akey6 a) = Ok r /\ lpm6 tbl a r.
Proof.
  intros t tbl a (H6 & _ & _ & Hg & _) Ha. rewrite Forall_forall in Hg.
  destruct (nfind_ok _ _ (akey6 a) H6) as (r & E & Hm & _). exists r. split; [exact E|].
  destruct r as [e|]; cbn [longest_match lpm6] in *.
  - destruct Hm as (k & Hin & Hp & Hmax). apply tab_in in Hin. destruct Hin as [Hin ->]. unfold k6 in *.
    split; [exact Hin|]. split; [apply akey6_prefix in Hp; auto|].
    intros e' Hin' Ha'. specialize (Hmax (k6 e') e').
    assert (Hl : (length (k6 e') <= length (key6 (e_p6 e)))%nat).
    { apply Hmax; [apply tab_in; auto|]. apply akey6_prefix; auto. }
    unfold k6, key6 in Hl. rewrite !kbits_length in Hl.
    destruct (good_facts e (Hg e Hin)) as (_ & B & _). destruct (good_facts e' (Hg e' Hin')) as (_ & B' & _). lia.
  - intros e Hin Ha'. apply (Hm (k6 e) e); [apply tab_in; auto|]. apply akey6_prefix; auto.
Qed.

Lemma nfind4 : forall t tbl a, NEInv t tbl -> is_u32 a ->
  exists r, rtrie_find (trie4 t) (akey4 a) = Ok r /\ lpm4 tbl a r.
Proof.
  intros t tbl a (_ & H4 & _ & Hg & _) Ha. rewrite Forall_forall in Hg.
  destruct (nfind_ok _ _ (akey4 a) H4) as (r & E & Hm & _). exists r. split; [exact E|].
  destruct r as [e|]; cbn [longest_match lpm4] in *.
  - destruct Hm as (k & Hin & Hp & Hmax). apply tab_in in Hin. destruct Hin as [Hin ->]. unfold k4 in *.
    split; [exact Hin|]. split; [apply akey4_prefix in Hp; auto|].
    intros e' Hin' Ha'. specialize (Hmax (k4 e') e').
    assert (Hl : (length (k4 e') <= length (key4 (e_p4 e)))%nat).
    { apply Hmax; [apply tab_in; auto|]. apply akey4_prefix; auto. }
    unfold k4, key4 in Hl. rewrite !kbits_length in Hl.
    destruct (good_facts e (Hg e Hin)) as (_ & _ & _ & B). destruct (good_facts e' (Hg e' Hin')) as (_ & _ & _ & B'). lia.
  - intros e Hin Ha'. apply (Hm (k4 e) e); [apply tab_in; auto|]. apply akey4_prefix; auto.
Qed.

Lemma nexact6 : forall t tbl p, NEInv t tbl -> wt_prefix6 p ->
  exists r, get_exact6 t p = Ok r /\
    match r with
    | Some e => In e tbl /\ p6_len p = p6_len (e_p6 e) /\ in6 (e_p6 e) (p6_addr p)
    | None => forall e, In e tbl -> ~ (p6_len p = p6_len (e_p6 e) /\ in6 (e_p6 e) (p6_addr p))
    end.
Proof.
  intros t tbl p (H6 & _ & _ & Hg & _) [Ha [Hl _]]. rewrite Forall_forall in Hg. unfold get_exact6.
  destruct (nfind_ok _ _ (key6 p) H6) as (r & E & Hm & _). rewrite E. cbn [bind].
  destruct r as [e|]; cbn [longest_match] in *.
  - destruct Hm as (k & Hin & Hp & Hmax). apply tab_in in Hin. destruct Hin as [Hin ->]. unfold k6 in *.
    apply key6_prefix in Hp; auto. destruct Hp as [Hle Hin6].
    destruct (Z.eqb_spec (p6_len (e_p6 e)) (p6_len p)) as [El|El]; eexists; (split; [reflexivity|]).
    + split; [exact Hin|]. split; [symmetry; exact El|assumption].
    + intros e' Hin' [El' Hin6'].
      assert (Hl' : (length (k6 e') <= length (key6 (e_p6 e)))%nat).
      { apply (Hmax (k6 e') e'); [apply tab_in; auto|]. apply key6_prefix; auto. split; [lia|auto]. }
      unfold k6, key6 in Hl'. rewrite !kbits_length in Hl'.
      destruct (good_facts e (Hg e Hin)) as (_ & B & _). destruct (good_facts e' (Hg e' Hin')) as (_ & B' & _). lia.
  - eexists. split; [reflexivity|]. intros e Hin [El Hin6]. apply (Hm (k6 e) e); [apply tab_in; auto|].
    apply key6_prefix; auto. split; [lia|auto].
Qed.

Lemma nexact4 : forall t tbl p, NEInv t tbl -> wt_prefix4 p ->
  exists r, get_exact4 t p = Ok r /\
    match r with
    | Some e => In e tbl /\ p4_len p = p4_len (e_p4 e) /\ in4 (e_p4 e) (p4_addr p)
    | None => forall e, In e tbl -> ~ (p4_len p = p4_len (e_p4 e) /\ in4 (e_p4 e) (p4_addr p))
    end.
Proof.
  intros t tbl p (_ & H4 & _ & Hg & _) [Ha [Hl _]]. rewrite Forall_forall in Hg. unfold get_exact4.
  destruct (nfind_ok _ _ (key4 p) H4) as (r & E & Hm & _). rewrite E. cbn [bind].
  destruct r as [e|]; cbn [longest_match] in *.
  - destruct Hm as (k & Hin & Hp & Hmax). apply tab_in in Hin. destruct Hin as [Hin ->]. unfold k4 in *.
    apply key4_prefix in Hp; auto. destruct Hp as [Hle Hin4].
    destruct (Z.eqb_spec (p4_len (e_p4 e)) (p4_len p)) as [El|El]; eexists; (split; [reflexivity|]).
    + split; [exact Hin|]. split; [symmetry; exact El|assumption].
    + intros e' Hin' [El' Hin4'].
      assert (Hl' : (length (k4 e') <= length (key4 (e_p4 e)))%nat).
      { apply (Hmax (k4 e') e'); [apply tab_in; auto|]. apply key4_prefix; auto. split; [lia|auto]. }
      unfold k4, key4 in Hl'. rewrite !kbits_length in Hl'.
      destruct (good_facts e (Hg e Hin)) as (_ & _ & _ & B). destruct (good_facts e' (Hg e' Hin')) as (_ & _ & _ & B'). lia.
  - eexists. split; [reflexivity|]. intros e Hin [El Hin4]. apply (Hm (k4 e) e); [apply tab_in; auto|].
    apply key4_prefix; auto. split; [lia|auto].
Qed.

(** validate_overlapping on an orderly addition *)
Lemma nvalidate_ok : forall t tbl e force m, NEInv t tbl -> good e -> orderly tbl (EAdd e force m) ->
  (validate_overlapping t e force = Ok OK /\ (forall e', In e' tbl -> e_p6 e' <> e_p6 e /\ e_p4 e' <> e_p4 e) /\
     (force = false -> forall e', In e' tbl -> disj e e')) \/
  (validate_overlapping t e force = Ok (Err EEXIST) /\ exists e', In e' tbl /\
     ((e_p6 e' = e_p6 e \/ e_p4 e' = e_p4 e) \/
      (force = false /\ (overlap6 (e_p6 e) (e_p6 e') \/ overlap4 (e_p4 e) (e_p4 e'))))).
Proof.
  intros t tbl e force m Hinv He Ht. cbn [orderly] in Ht.
  pose proof Hinv as (_ & _ & _ & Hg & _). rewrite Forall_forall in Hg.
  destruct (good_facts e He) as (A1 & A2 & A3 & A4).
  destruct (nfind6 t tbl (p6_addr (e_p6 e)) Hinv A1) as (r6 & E6 & M6).
  destruct (nfind4 t tbl (p4_addr (e_p4 e)) Hinv A3) as (r4 & E4 & M4).
  assert (Self6 : in6 (e_p6 e) (p6_addr (e_p6 e))) by (unfold in6, in_prefix; reflexivity).
  assert (Self4 : in4 (e_p4 e) (p4_addr (e_p4 e))) by (unfold in4, in_prefix; reflexivity).
  unfold validate_overlapping. rewrite E6. cbn [bind].
  (* IPv6 *)
  assert (C6 : (match r6 with Some o => collision6 e o force | None => OK end = OK /\
      (forall e', In e' tbl -> e_p6 e' <> e_p6 e) /\
      (force = false -> forall e', In e' tbl -> ~ overlap6 (e_p6 e) (e_p6 e'))) \/
    (match r6 with Some o => collision6 e o force | None => OK end = Err EEXIST /\ exists e', In e' tbl /\
      (e_p6 e' = e_p6 e \/ (force = false /\ overlap6 (e_p6 e) (e_p6 e'))))).
  { destruct r6 as [o|]; cbn [lpm6] in M6.
    - destruct M6 as (Hin & Ho & Hmax). destruct (Ht o Hin) as (T1 & _).
      destruct (good_facts o (Hg o Hin)) as (B1 & B2 & B3 & B4).
      unfold collision6. destruct (Z.eqb_spec (p6_len (e_p6 e)) (p6_len (e_p6 o))) as [El|El].
      + right. split; [reflexivity|]. exists o. split; [exact Hin|]. left. symmetry. apply same_prefix6; auto.
      + destruct force.
        * left. split; [reflexivity|]. split; [|discriminate]. intros e' Hin' E'.
          specialize (Hmax e' Hin'). rewrite E' in Hmax. specialize (Hmax Self6).
          apply T1. split; [lia|]. unfold in6 in *. apply in_prefix_sym. eapply in_prefix_shorter; [| |exact Ho]; lia.
        * right. split; [reflexivity|]. exists o. split; [exact Hin|]. right. split; [reflexivity|].
          exists (p6_addr (e_p6 e)). auto.
    - left. split; [reflexivity|]. split.
      + intros e' Hin' E'. apply (M6 e' Hin'). rewrite E'. exact Self6.
      + intros _ e' Hin' (a & Ha & O1 & O2). destruct (good_facts e' (Hg e' Hin')) as (B1 & B2 & B3 & B4).
        destruct (Ht e' Hin') as (T1 & _). unfold wider6, in6 in *.
        destruct (Z_lt_ge_dec (p6_len (e_p6 e)) (p6_len (e_p6 e'))).
        * apply T1. split; [lia|]. eapply common_addr; [| |exact O1|exact O2]; lia.
        * apply (M6 e' Hin'). eapply common_addr; [| |exact O2|exact O1]; lia. }
  destruct C6 as [(-> & D6 & F6)|(-> & e' & Hin' & X)].
  2:{ right. split; [reflexivity|]. exists e'. split; [exact Hin'|]. tauto. }
  rewrite E4. cbn [bind].
  assert (C4 : (match r4 with Some o => collision4 e o force | None => OK end = OK /\
      (forall e', In e' tbl -> e_p4 e' <> e_p4 e) /\
      (force = false -> forall e', In e' tbl -> ~ overlap4 (e_p4 e) (e_p4 e'))) \/
    (match r4 with Some o => collision4 e o force | None => OK end = Err EEXIST /\ exists e', In e' tbl /\
      (e_p4 e' = e_p4 e \/ (force = false /\ overlap4 (e_p4 e) (e_p4 e'))))).
  { destruct r4 as [o|]; cbn [lpm4] in M4.
    - destruct M4 as (Hin & Ho & Hmax). destruct (Ht o Hin) as (_ & T1).
      destruct (good_facts o (Hg o Hin)) as (B1 & B2 & B3 & B4).
      unfold collision4. destruct (Z.eqb_spec (p4_len (e_p4 e)) (p4_len (e_p4 o))) as [El|El].
      + right. split; [reflexivity|]. exists o. split; [exact Hin|]. left. symmetry. apply same_prefix4; auto.
      + destruct force.
        * left. split; [reflexivity|]. split; [|discriminate]. intros e' Hin' E'.
          specialize (Hmax e' Hin'). rewrite E' in Hmax. specialize (Hmax Self4).
          apply T1. split; [lia|]. unfold in4 in *. apply in_prefix_sym. eapply in_prefix_shorter; [| |exact Ho]; lia.
        * right. split; [reflexivity|]. exists o. split; [exact Hin|]. right. split; [reflexivity|].
          exists (p4_addr (e_p4 e)). auto.
    - left. split; [reflexivity|]. split.
      + intros e' Hin' E'. apply (M4 e' Hin'). rewrite E'. exact Self4.
      + intros _ e' Hin' (a & Ha & O1 & O2). destruct (good_facts e' (Hg e' Hin')) as (B1 & B2 & B3 & B4).
        destruct (Ht e' Hin') as (_ & T1). unfold wider4, in4 in *.
        destruct (Z_lt_ge_dec (p4_len (e_p4 e)) (p4_len (e_p4 e'))).
        * apply T1. split; [lia|]. eapply common_addr; [| |exact O1|exact O2]; lia.
        * apply (M4 e' Hin'). eapply common_addr; [| |exact O2|exact O1]; lia. }
  destruct C4 as [(-> & D4 & F4)|(-> & e' & Hin' & X)].
  - left. split; [reflexivity|]. split; [intros e' Hin'; split; auto|]. intros Hf e' Hin'. split; auto.
  - right. split; [reflexivity|]. exists e'. split; [exact Hin'|]. tauto.
Qed.

Lemma neam_add_ok : forall t tbl e force m, NEInv t tbl -> wt_eam e -> orderly tbl (EAdd e force m) ->
  exists r t' tbl', eamt_add t e force m = Ok (r, t') /\ espec_step tbl (EAdd e force m) r tbl' /\ NEInv t' tbl'.
Proof.
  intros t tbl e force m Hinv Hwt Ht. unfold eamt_add.
  destruct (validate_prefixes_legal e Hwt) as [(-> & Hl)|(-> & Hl)].
  2:{ exists (Err EINVAL), t, tbl. split; [reflexivity|]. split; [apply ESAddIllegal; auto|auto]. }
  assert (He : good e) by (split; auto).
  destruct (nvalidate_ok t tbl e force m Hinv He Ht) as [(-> & Hd & Hnf)|(-> & e' & Hin & Hx)]; cbn [bind].
  2:{ exists (Err EEXIST), t, tbl. split; [reflexivity|]. split; [eapply ESAddExists; eauto|auto]. }
  pose proof Hinv as (H6 & H4 & Hc & Hg & Hdis). pose proof Hg as Hg'. rewrite Forall_forall in Hg'.
  assert (D6 : forall e', In e' tbl -> k6 e' <> k6 e).
  { intros e' Hin' E. apply (proj1 (Hd e' Hin')). apply k6_inj; auto. }
  assert (D4 : forall e', In e' tbl -> k4 e' <> k4 e).
  { intros e' Hin' E. apply (proj2 (Hd e' Hin')). apply k4_inj; auto. }
  assert (W6 : forall e', In e' tbl -> ~ prefix_of (k6 e) (k6 e')).
  { intros e' Hin' Hp. apply (proj1 (Ht e' Hin')). apply strict_wider6; auto. split; [exact Hp|]. intros E. apply (D6 e' Hin'). auto. }
  assert (W4 : forall e', In e' tbl -> ~ prefix_of (k4 e) (k4 e')).
  { intros e' Hin' Hp. apply (proj2 (Ht e' Hin')). apply strict_wider4; auto. split; [exact Hp|]. intros E. apply (D4 e' Hin'). auto. }
  destruct (nadd_fam k6 (trie6 t) tbl e (m6a m) (m6b m) H6 D6 W6) as (r6 & t6 & E6 & C6).
  fold (k6 e). rewrite E6. cbn [bind fst snd trie6 trie4 ecount].
  destruct C6 as [(-> & I6)|(-> & Hm & I6)].
  2:{ exists (Err ENOMEM), (Eamt t6 (trie4 t) (ecount t)), tbl. split; [reflexivity|]. split.
      - apply ESAddNoMem. unfold mem_ok. intros (X1 & X2 & _). rewrite X1, X2 in Hm. discriminate.
      - repeat split; auto. }
  destruct (nadd_fam k4 (trie4 t) tbl e (m4a m) (m4b m) H4 D4 W4) as (r4 & t4 & E4 & C4).
  fold (k4 e). rewrite E4. cbn [bind fst snd trie6 trie4 ecount].
  destruct C4 as [(-> & I4)|(-> & Hm & I4)].
  - exists OK. eexists. exists (e :: tbl). split; [reflexivity|]. split.
    + apply ESAdd; auto.
    + split; [exact I6|]. split; [exact I4|]. cbn [ecount length]. split; [rewrite Hc; apply u64_succ|].
      split; [constructor; auto|]. constructor; auto. apply Forall_forall. intros e' Hin'. destruct (Hd e' Hin'). split; congruence.
  - destruct (nrm_fam k6 t6 [] e tbl (mrev m) I6) as (t6' & E6' & I6').
    { exact D6. }
    { intros a b Ha _ (Hp & _). exfalso. exact (W6 a Ha Hp). }
    rewrite E6'. cbn [bind snd].
    exists (Err ENOMEM). eexists. exists tbl. split; [reflexivity|]. split.
    + apply ESAddNoMem. unfold mem_ok. intros (_ & _ & X1 & X2). rewrite X1, X2 in Hm. discriminate.
    + repeat split; auto.
Qed.

Lemma neam__rm_ok : forall t l1 e l2 p6 p4 m1 m2, NEInv t (l1 ++ e :: l2) ->
  key6 p6 = k6 e -> key4 p4 = k4 e ->
  (forall a b, In a (l1 ++ l2) -> In b (l1 ++ l2) ->
      (wider6 (e_p6 e) (e_p6 a) -> wider6 (e_p6 e) (e_p6 b) -> overlap6 (e_p6 a) (e_p6 b)) /\
      (wider4 (e_p4 e) (e_p4 a) -> wider4 (e_p4 e) (e_p4 b) -> overlap4 (e_p4 a) (e_p4 b))) ->
  exists t', eamt__rm t p6 p4 m1 m2 = Ok (OK, t') /\ NEInv t' (l1 ++ l2).
Proof.
  intros t l1 e l2 p6 p4 m1 m2 Hinv E6 E4 Hch.
  assert (Hinv2 : NEInv t (e :: l1 ++ l2)) by (eapply NEInv_perm; [exact Hinv|symmetry; apply Permutation_middle]).
  pose proof Hinv as (H6 & H4 & Hc & Hg & Hd).
  pose proof Hinv2 as (_ & _ & Hc2 & Hg2 & Hd2). apply Forall_cons_iff in Hg2. destruct Hg2 as [He Hg2].
  inversion Hd2 as [|? ? D1 D2]; subst. rewrite Forall_forall in D1, Hg2.
  unfold eamt__rm. rewrite E6, E4.
  destruct (nrm_fam k6 (trie6 t) l1 e l2 m1 H6) as (t6 & R6 & I6).
  { intros e' Hin E. apply (proj1 (D1 e' Hin)). symmetry. apply k6_inj; auto. }
  { intros a b Ha Hb S1 S2. apply overlap6_keys; auto. apply Hch; auto; apply strict_wider6; auto. }
  destruct (nrm_fam k4 (trie4 t) l1 e l2 m2 H4) as (t4 & R4 & I4).
  { intros e' Hin E. apply (proj2 (D1 e' Hin)). symmetry. apply k4_inj; auto. }
  { intros a b Ha Hb S1 S2. apply overlap4_keys; auto. apply Hch; auto; apply strict_wider4; auto. }
  rewrite R6. cbn [bind fst snd trie4 trie6 ecount]. rewrite R4. cbn [bind fst snd trie4 trie6 ecount].
  eexists. split; [reflexivity|]. split; [exact I6|]. split; [exact I4|]. cbn [ecount]. split.
  - rewrite Hc2. cbn [length]. apply u64_pred.
  - split; [apply Forall_forall; exact Hg2|exact D2].
Qed.

Lemma named_same6 : forall e e' p, good e -> good e' -> p6_len p = p6_len (e_p6 e) -> in6 (e_p6 e) (p6_addr p) ->
  p6_len p = p6_len (e_p6 e') -> in6 (e_p6 e') (p6_addr p) -> e_p6 e = e_p6 e'.
Proof.
  intros e e' p He He' L1 I1 L2 I2. apply same_prefix6; auto; [congruence|]. unfold in6, in_prefix in *.
  rewrite <- L2 in *. rewrite <- L1 in *. congruence.
Qed.
Lemma named_same4 : forall e e' p, good e -> good e' -> p4_len p = p4_len (e_p4 e) -> in4 (e_p4 e) (p4_addr p) ->
  p4_len p = p4_len (e_p4 e') -> in4 (e_p4 e') (p4_addr p) -> e_p4 e = e_p4 e'.
Proof.
  intros e e' p He He' L1 I1 L2 I2. apply same_prefix4; auto; [congruence|]. unfold in4, in_prefix in *.
  rewrite <- L2 in *. rewrite <- L1 in *. congruence.
Qed.

Lemma distinct_same : forall tbl a b, distinct_entries tbl -> In a tbl -> In b tbl ->
  e_p6 a = e_p6 b \/ e_p4 a = e_p4 b -> a = b.
Proof.
  intros tbl a b Hd Ha Hb E. destruct (in_split _ _ Ha) as (l1 & l2 & ->). apply in_app_or in Hb.
  destruct Hb as [Hb|[Hb|Hb]]; auto; exfalso;
    (destruct (distinct_split l1 a l2 Hd b) as (D6 & D4); [apply in_or_app; auto|]; destruct E; congruence).
Qed.

Lemma neam_rm_ok : forall t tbl o6 o4 m1 m2, NEInv t tbl -> wt_op (ERm o6 o4 m1 m2) -> orderly tbl (ERm o6 o4 m1 m2) ->
  exists r t' tbl', eamt_rm t o6 o4 m1 m2 = Ok (r, t') /\ espec_step tbl (ERm o6 o4 m1 m2) r tbl' /\ NEInv t' tbl'.
Proof.
  intros t tbl o6 o4 m1 m2 Hinv (W6 & W4) Hord. cbn [orderly] in Hord.
  pose proof Hinv as (_ & _ & _ & Hg & Hdis). rewrite Forall_forall in Hg.
  (* removing a named entry *)
  assert (Hrm : forall e p6 p4, In e tbl -> names o6 o4 e -> key6 p6 = k6 e -> key4 p4 = k4 e ->
    exists t' tbl', eamt__rm t p6 p4 m1 m2 = Ok (OK, t') /\ espec_step tbl (ERm o6 o4 m1 m2) OK tbl' /\ NEInv t' tbl').
  { intros e p6 p4 Hin Hn E6 E4. destruct (in_split _ _ Hin) as (l1 & l2 & El). rewrite El in *.
    assert (Sub : forall a, In a (l1 ++ l2) -> In a (l1 ++ e :: l2)).
    { intros a Ha. apply in_app_or in Ha. apply in_or_app. cbn. tauto. }
    destruct (neam__rm_ok t l1 e l2 p6 p4 m1 m2 Hinv E6 E4) as (t' & E & Hi).
    { intros a b Ha Hb. apply (Hord e); auto. }
    exists t', (l1 ++ l2). split; [exact E|]. split; [|exact Hi].
    apply ESRm with (e := e); [exact Hn|symmetry; apply Permutation_middle|].
    intros e' Hin' Hn'. destruct (distinct_split l1 e l2 Hdis e' Hin') as (N6' & N4').
    assert (Ge' : good e') by auto. assert (Ge : good e) by auto.
    destruct Hn as (Hne & N6 & N4), Hn' as (_ & M6 & M4). destruct o6 as [q6|].
    - destruct (N6 q6 eq_refl), (M6 q6 eq_refl). apply N6'. apply (named_same6 e' e q6); auto.
    - destruct o4 as [q4|]; [|destruct Hne; congruence].
      destruct (N4 q4 eq_refl), (M4 q4 eq_refl). apply N4'. apply (named_same4 e' e q4); auto. }
  destruct o6 as [q6|], o4 as [q4|]; cbn [eamt_rm].
  - destruct (nexact6 t tbl q6 Hinv (W6 q6 eq_refl)) as (r6 & E6 & X6). rewrite E6. cbn [bind].
    destruct r6 as [a|].
    + destruct X6 as (Ina & La & Ia).
      destruct (nexact4 t tbl q4 Hinv (W4 q4 eq_refl)) as (r4 & E4 & X4). rewrite E4. cbn [bind].
      destruct r4 as [b|].
      * destruct X4 as (Inb & Lb & Ib). destruct (eamt_entry_equals a b) eqn:Eab.
        -- apply eam_entry_equals_spec in Eab. subst b.
           destruct (Hrm a q6 q4 Ina) as (t' & tbl' & E & S & I).
           { split; [left; discriminate|]. split; intros p [= <-]; auto. }
           { apply key6_named; auto. } { apply key4_named; auto. }
           exists OK, t', tbl'. auto.
        -- exists (Err ESRCH), t, tbl. split; [reflexivity|]. split; [|exact Hinv].
           apply ESRmNone; [left; discriminate|]. intros e Hin (_ & N6 & N4).
           destruct (N6 q6 eq_refl) as [L6 I6], (N4 q4 eq_refl) as [L4 I4].
           assert (e = a) by (apply (distinct_same tbl); auto; left; apply (named_same6 e a q6); auto).
           assert (e = b) by (apply (distinct_same tbl); auto; right; apply (named_same4 e b q4); auto).
           subst. subst. rewrite (proj2 (eam_entry_equals_spec b b) eq_refl) in Eab. discriminate.
      * exists (Err ESRCH), t, tbl. split; [reflexivity|]. split; [|exact Hinv].
        apply ESRmNone; [left; discriminate|]. intros e Hin (_ & _ & N4). exact (X4 e Hin (N4 q4 eq_refl)).
    + exists (Err ESRCH), t, tbl. split; [reflexivity|]. split; [|exact Hinv].
      apply ESRmNone; [left; discriminate|]. intros e Hin (_ & N6 & _). exact (X6 e Hin (N6 q6 eq_refl)).
  - destruct (nexact6 t tbl q6 Hinv (W6 q6 eq_refl)) as (r6 & E6 & X6). rewrite E6. cbn [bind].
    destruct r6 as [a|].
    + destruct X6 as (Ina & La & Ia). destruct (Hrm a q6 (e_p4 a) Ina) as (t' & tbl' & E & S & I).
      { split; [left; discriminate|]. split; intros p [= <-]; auto. }
      { apply key6_named; auto. } { reflexivity. }
      exists OK, t', tbl'. auto.
    + exists (Err ESRCH), t, tbl. split; [reflexivity|]. split; [|exact Hinv].
      apply ESRmNone; [left; discriminate|]. intros e Hin (_ & N6 & _). exact (X6 e Hin (N6 q6 eq_refl)).
  - destruct (nexact4 t tbl q4 Hinv (W4 q4 eq_refl)) as (r4 & E4 & X4). rewrite E4. cbn [bind].
    destruct r4 as [a|].
    + destruct X4 as (Ina & La & Ia). destruct (Hrm a (e_p6 a) q4 Ina) as (t' & tbl' & E & S & I).
      { split; [right; discriminate|]. split; intros p [= <-]; auto. }
      { reflexivity. } { apply key4_named; auto. }
      exists OK, t', tbl'. auto.
    + exists (Err ESRCH), t, tbl. split; [reflexivity|]. split; [|exact Hinv].
      apply ESRmNone; [right; discriminate|]. intros e Hin (_ & _ & N4). exact (X4 e Hin (N4 q4 eq_refl)).
  - exists (Err EINVAL), t, tbl. split; [reflexivity|]. split; [constructor|exact Hinv].
Qed.

Lemma neam_step_ok : forall t tbl o, NEInv t tbl -> wt_op o -> orderly tbl o ->
  exists r t' tbl', eam_step t o = Ok (r, t') /\ espec_step tbl o r tbl' /\ NEInv t' tbl'.
Proof.
  intros t tbl [e force m|o6 o4 m1 m2|] Hinv Hwt Ht; cbn [eam_step].
  - apply neam_add_ok; auto.
  - apply neam_rm_ok; auto.
  - exists OK, (eamt_flush t), []. split; [reflexivity|]. split; [constructor|].
    destruct Hinv as (H6 & H4 & _). split; [eapply nflush_ok; exact H6|]. split; [eapply nflush_ok; exact H4|].
    repeat split; constructor.
Qed.

Lemma neam_run_ok : forall ops t tbl, NEInv t tbl -> orderly_history tbl ops ->
  exists rs t' tbl', eam_run t ops = Ok (rs, t') /\ espec_run tbl ops rs tbl' /\ NEInv t' tbl'.
Proof.
  induction ops as [|o ops IH]; intros t tbl Hinv Hno; cbn [orderly_history eam_run] in *.
  - exists [], t, tbl. repeat split; auto; try apply Hinv. constructor.
  - destruct Hno as (Hwt & Ht & Hno).
    destruct (neam_step_ok t tbl o Hinv Hwt Ht) as (r & t1 & tbl1 & E1 & S1 & I1).
    destruct (IH t1 tbl1 I1 (Hno r tbl1 S1)) as (rs & t2 & tbl2 & E2 & S2 & I2).
    exists (r :: rs), t2, tbl2. rewrite E1. cbn [bind snd]. rewrite E2. cbn [bind fst snd].
    split; [reflexivity|]. split; [econstructor; eauto|auto].
Qed.

Lemma nalloc_inv : NEInv eamt_alloc [].
Proof. repeat split; try apply ninit; constructor. Qed.

(** ** Listing in pages *)
Section Pages.
Context {V : Type}.

Fixpoint nkeys (t : ntree V) : list (nat * key) :=
  match t with E => [] | N a k _ l r => (a, k) :: nkeys l ++ nkeys r end.

Lemma nkeys_ext : forall t a k, nwf t -> In (a, k) (nkeys t) -> contains (okey t) k /\ In a (nfp t).
Proof.
  induction t as [|a0 k0 ov l IHl r IHr]; cbn [nkeys okey nwf contains nfp]; intros a k Hw Hin; [destruct Hin|].
  destruct Hw as (Bl & Br & _ & _ & Wl & Wr). destruct Hin as [[= <- <-]|Hin]; [split; [apply prefix_refl|left; reflexivity]|].
  apply in_app_or in Hin. destruct Hin as [Hin|Hin].
  - destruct (IHl _ _ Wl Hin) as (X & Y). split; [|right; apply in_or_app; auto].
    destruct (okey l); cbn in *; [|destruct X]. eapply prefix_trans; [apply Bl|exact X].
  - destruct (IHr _ _ Wr Hin) as (X & Y). split; [|right; apply in_or_app; auto].
    destruct (okey r); cbn in *; [|destruct X]. eapply prefix_trans; [apply Br|exact X].
Qed.

(** Two nodes never have the same key. *)
Lemma nkeys_unique : forall t a b k, nwf t -> In (a, k) (nkeys t) -> In (b, k) (nkeys t) -> a = b.
Proof.
  induction t as [|a0 k0 ov l IHl r IHr]; cbn [nkeys nwf]; intros a b k Hw Ha Hb; [destruct Ha|].
  destruct Hw as (Bl & Br & A & _ & Wl & Wr).
  assert (X : forall x y, (x = l /\ y = r) \/ (x = r /\ y = l) ->
    ~ In (a, k0) (nkeys x) /\ ~ In (b, k0) (nkeys x) /\ ~ (In (a, k) (nkeys x) /\ In (b, k) (nkeys y))).
  { intros x y Hxy.
    assert (Bx : below k0 (okey x)) by (destruct Hxy as [(-> & _)|(-> & _)]; auto).
    assert (Wx : nwf x) by (destruct Hxy as [(-> & _)|(-> & _)]; auto).
    assert (Wy : nwf y) by (destruct Hxy as [(_ & ->)|(_ & ->)]; auto).
    assert (Axy : apart (okey x) (okey y)) by (destruct Hxy as [(-> & ->)|(-> & ->)]; auto; apply apart_sym; auto).
    assert (Nx : forall p, ~ In (p, k0) (nkeys x)).
    { intros p Hp. destruct (nkeys_ext x p k0 Wx Hp) as (C & _). destruct (okey x); cbn in *; [|exact C].
      pose proof (strict_len _ _ Bx). pose proof (prefix_len _ _ C). lia. }
    split; [apply Nx|]. split; [apply Nx|]. intros (P & Q).
    destruct (nkeys_ext x a k Wx P) as (C1 & _). destruct (nkeys_ext y b k Wy Q) as (C2 & _).
    destruct (okey x), (okey y); cbn in *; try tauto. apply Axy. eapply prefix_overlap; eauto. }
  destruct (X l r (or_introl (conj eq_refl eq_refl))) as (X1 & X2 & X3).
  destruct (X r l (or_intror (conj eq_refl eq_refl))) as (X4 & X5 & X6). clear X.
  destruct Ha as [Ha|Ha], Hb as [Hb|Hb].
  - congruence.
  - injection Ha as <- <-. apply in_app_or in Hb. tauto.
  - injection Hb as <- <-. apply in_app_or in Ha. tauto.
  - apply in_app_or in Ha. apply in_app_or in Hb. destruct Ha as [Ha|Ha], Hb as [Hb|Hb]; eauto; exfalso; tauto.
Qed.

Lemma nkeys_node : forall t h par p n, nrep h par t -> In p (nfp t) -> h p = Some n -> In (p, n_key n) (nkeys t).
Proof.
  induction t as [|a0 k0 ov l IHl r IHr]; cbn [nrep nfp nkeys]; intros h par p n Hr Hin Hn; [destruct Hin|].
  destruct Hr as (Ha & Hl & Hrr). destruct Hin as [<-|Hin].
  - left. rewrite Ha in Hn. injection Hn as <-. reflexivity.
  - right. apply in_or_app. apply in_app_or in Hin. destruct Hin as [Hin|Hin]; [left; eapply IHl|right; eapply IHr]; eauto.
Qed.

(** The values come out in the order of the node list. *)
Lemma vals_at_split : forall h (L : list nat) l1 (v : V) l2, vals_at h L = l1 ++ v :: l2 ->
  exists L1 p n L2, L = L1 ++ p :: L2 /\ h p = Some n /\ n_val n = Some v /\ vals_at h L1 = l1 /\ vals_at h L2 = l2.
Proof.
  unfold vals_at. induction L as [|q L IH]; cbn [flat_map]; intros l1 v l2 H; [destruct l1; discriminate|].
  destruct (h q) as [n|] eqn:Hq; [destruct (n_val n) as [w|] eqn:Hv|]; cbn [app] in H.
  - destruct l1 as [|x l1]; cbn [app] in H; injection H as <- H.
    + exists [], q, n, L. repeat split; auto.
    + destruct (IH l1 v l2 H) as (L1 & p & m & L2 & -> & Hp & Hm & V1 & V2).
      exists (q :: L1), p, m, L2. repeat split; auto. cbn [flat_map]. rewrite Hq, Hv. cbn [app]. f_equal. exact V1.
  - destruct (IH l1 v l2 H) as (L1 & p & m & L2 & -> & Hp & Hm & V1 & V2).
    exists (q :: L1), p, m, L2. repeat split; auto. cbn [flat_map]. rewrite Hq, Hv. exact V1.
  - destruct (IH l1 v l2 H) as (L1 & p & m & L2 & -> & Hp & Hm & V1 & V2).
    exists (q :: L1), p, m, L2. repeat split; auto. cbn [flat_map]. rewrite Hq. exact V1.
Qed.

Lemma foreach_skip : forall (t : trie V) L1 p n L2 k, (forall q, In q L1 -> exists m, t_heap t q = Some m /\ n_key m <> k) ->
  t_heap t p = Some n -> n_key n = k -> foreach_loop t (L1 ++ p :: L2) (Some k) = foreach_loop t L2 None.
Proof.
  induction L1 as [|q L1 IH]; intros p n L2 k HL Hp Hk; cbn [app foreach_loop].
  - unfold deref. rewrite Hp. cbn [bind]. rewrite (proj2 (key_equals_spec k (n_key n))) by auto. reflexivity.
  - destruct (HL q (or_introl eq_refl)) as (m & Hm & Hne). unfold deref at 1. rewrite Hm. cbn [bind].
    destruct (key_equals k (n_key m)) eqn:E; [apply key_equals_spec in E; congruence|].
    eapply IH; eauto. intros q' Hq'. apply HL. right. exact Hq'.
Qed.

Lemma nforeach_resume : forall (t : trie V) tbl k v l1 l2, NInv t tbl -> In (k, v) tbl ->
  (forall k', In (k', v) tbl -> k' = k) ->
  rtrie_foreach t None = Ok (OK, l1 ++ v :: l2) -> rtrie_foreach t (Some k) = Ok (OK, l2).
Proof.
  intros t tbl k v l1 l2 (tr & Hst & Hperm) Hin Hu Hall. unfold rtrie_foreach in *.
  pose proof Hst as (HR & Hrep & Hnd & Hlt & Hlist & Hwf).
  assert (H : forall p, In p (t_list t) -> exists n, t_heap t p = Some n).
  { intros p Hp. eapply nrep_node_in; [exact Hrep|eapply Permutation_in; eauto]. }
  destruct (t_list t) as [|p0 L0] eqn:EL; [destruct l1; discriminate|]. rewrite foreach_all in Hall by exact H.
  cbn [bind fst snd] in Hall. remember (p0 :: L0) as L eqn:EL0. clear EL0.
  assert (Hv : vals_at (t_heap t) L = l1 ++ v :: l2) by congruence. clear Hall.
  destruct (vals_at_split _ _ _ _ _ Hv) as (L1 & p & n & L2 & -> & Hp & Hn & V1 & V2).
  assert (Kn : n_key n = k).
  { apply Hu. eapply Permutation_in; [exact Hperm|].
    assert (G : forall (t0 : ntree V) h par q m w, nrep h par t0 -> In q (nfp t0) -> h q = Some m -> n_val m = Some w -> In (n_key m, w) (nvals t0)).
    { induction t0 as [|a0 k0 ov l IHl r IHr]; cbn [nrep nfp nvals]; intros h par q m w Hr Hi Hq Hw; [destruct Hi|].
      destruct Hr as (Ha & Hl & Hrr). destruct Hi as [<-|Hi].
      - rewrite Ha in Hq. injection Hq as <-. cbn [n_val n_key] in *. subst ov. left. reflexivity.
      - apply in_or_app. right. apply in_or_app. apply in_app_or in Hi. destruct Hi as [Hi|Hi]; [left; eapply IHl|right; eapply IHr]; eauto. }
    apply (G tr (t_heap t) None p n v); auto. eapply Permutation_in; [exact Hlist|]. apply in_or_app. right. left. reflexivity. }
  assert (HN : NoDup (L1 ++ p :: L2)) by (eapply Permutation_NoDup; [symmetry; exact Hlist|exact Hnd]).
  rewrite (foreach_skip t L1 p n L2 k); auto.
  - rewrite foreach_all by (intros q Hq; apply H; apply in_or_app; right; right; exact Hq). cbn [bind fst snd]. rewrite V2. reflexivity.
  - intros q Hq. destruct (H q) as (m & Hm); [apply in_or_app; auto|]. exists m. split; [exact Hm|]. intros E.
    assert (Iq : In q (nfp tr)) by (eapply Permutation_in; [exact Hlist|apply in_or_app; auto]).
    assert (Ip : In p (nfp tr)) by (eapply Permutation_in; [exact Hlist|apply in_or_app; right; left; reflexivity]).
    pose proof (nkeys_node tr _ _ q m Hrep Iq Hm) as X1. pose proof (nkeys_node tr _ _ p n Hrep Ip Hp) as X2.
    rewrite E in X1. rewrite Kn in X2. pose proof (nkeys_unique tr q p k Hwf X1 X2). subst q.
    apply NoDup_remove_2 in HN. apply HN. apply in_or_app. auto.
Qed.
End Pages.
