Require Import Verif.Base Verif.Addr_Model Verif.Addr_Spec Verif.Addr_Proofs Verif.Paging.
Require Import Verif.Deny_Model Verif.Deny_Spec.

Lemma prefix4_eqb : forall a b, prefix4_equals a b = true <-> a = b.
Proof.
  intros [a1 l1] [a2 l2]. unfold prefix4_equals. cbn [p4_addr p4_len].
  rewrite andb_true_iff, !Z.eqb_eq. split; [intros [-> ->]; reflexivity|intros [= -> ->]; auto].
Qed.

Definition prefix4_dec : forall a b : prefix4, {a = b} + {a <> b}.
Proof. decide equality; apply Z.eq_dec. Defined.

Definition cnt (l : list prefix4) : bag := fun p => count_occ prefix4_dec l p.

Lemma scope_spec : forall a, is_u32 a ->
  (exists s, In s scope_subnets /\ in_prefix 32 (p4_addr s) (p4_len s) a) <-> subnet_scoped a.
Proof.
  intros a Ha. unfold scope_subnets, subnet_scoped, in_prefix. cbn [In]. unfold is_u32 in Ha. split.
  - intros (s & Hs & H). destruct Hs as [<-|[<-|[<-|[<-|[<-|[]]]]]]; cbn [p4_addr p4_len] in H.
    + left. change (2 ^ (32 - 8)) with 16777216 in H. lia.
    + right; left. change (2 ^ (32 - 8)) with 16777216 in H. lia.
    + right; right; left. change (2 ^ (32 - 16)) with 65536 in H. lia.
    + right; right; right; left. change (2 ^ (32 - 4)) with 268435456 in H. lia.
    + do 4 right. change (2 ^ (32 - 32)) with 1 in H. lia.
  - intros [H|[H|[H|[H|H]]]].
    + exists (P4 0x00000000 8). split; [tauto|]. cbn [p4_addr p4_len]. change (2 ^ (32 - 8)) with 16777216. lia.
    + exists (P4 0x7f000000 8). split; [tauto|]. cbn [p4_addr p4_len]. change (2 ^ (32 - 8)) with 16777216. lia.
    + exists (P4 0xa9fe0000 16). split; [tauto|]. cbn [p4_addr p4_len]. change (2 ^ (32 - 16)) with 65536. lia.
    + exists (P4 0xe0000000 4). split; [tauto|]. cbn [p4_addr p4_len]. change (2 ^ (32 - 4)) with 268435456. lia.
    + exists (P4 0xffffffff 32). split; [tauto|]. cbn [p4_addr p4_len]. change (2 ^ (32 - 32)) with 1. lia.
Qed.

Lemma has_scope_spec : forall p, wt_prefix4 p -> p4_len p <= 32 ->
  prefix4_has_subnet_scope p = true <->
  exists a, is_u32 a /\ in_prefix 32 (p4_addr p) (p4_len p) a /\ subnet_scoped a.
Proof.
  intros p [Hp Hl] H32. unfold prefix4_has_subnet_scope. rewrite existsb_exists. unfold is_u8 in Hl.
  assert (W : forall s, In s scope_subnets -> is_u32 (p4_addr s) /\ 0 <= p4_len s <= 32).
  { intros s Hs. unfold scope_subnets in Hs. cbn [In] in Hs.
    repeat (destruct Hs as [<-|Hs]; [unfold is_u32; cbn [p4_addr p4_len]; lia|]). destruct Hs. }
  split.
  - intros (s & Hs & H). destruct (W s Hs) as [W1 W2].
    apply prefix4_intersects_spec in H; auto; [|lia]. destruct H as (a & Ha & H1 & H2).
    exists a. split; [auto|]. split; [auto|]. apply (scope_spec a Ha). eauto.
  - intros (a & Ha & H1 & H2). apply (scope_spec a Ha) in H2. destruct H2 as (s & Hs & H2).
    exists s. split; [auto|]. destruct (W s Hs). apply prefix4_intersects_spec; auto; [lia|]. eauto.
Qed.

Lemma admissible_spec : forall p f, wt_prefix4 p ->
  (prefix4_validate p = OK /\ prefix4_validate_scope p f = OK) <-> admissible p f.
Proof.
  intros p f Hw. rewrite (prefix4_validate_spec p Hw). unfold admissible, prefix4_validate_scope. split.
  - intros [[Hl Hm] H]. split; [auto|]. split; [auto|]. destruct f; [auto|]. right. cbn [negb andb] in H.
    intros a Ha Hin Hs. assert (E : prefix4_has_subnet_scope p = true) by (apply has_scope_spec; eauto).
    rewrite E in H. discriminate.
  - intros (Hl & Hm & H). split; [auto|]. destruct f; [reflexivity|]. destruct H as [H|H]; [discriminate|]. cbn [negb andb].
    destruct (prefix4_has_subnet_scope p) eqn:E; [|reflexivity]. apply has_scope_spec in E; auto.
    destruct E as (a & Ha & Hin & Hs). exfalso. eapply H; eauto.
Qed.

Lemma validate_err : forall p e, prefix4_validate p = Err e -> e = EINVAL.
Proof.
  intros p e. unfold prefix4_validate. destruct (p4_len p >? 32); [congruence|].
  destruct (negb _); congruence.
Qed.
Lemma validate_scope_err : forall p f e, prefix4_validate_scope p f = Err e -> e = EINVAL.
Proof. intros p f e. unfold prefix4_validate_scope. destruct (_ && _); congruence. Qed.

Definition stored_ok (l : list prefix4) : Prop := Forall (fun p => wt_prefix4 p /\ p4_len p <= 32) l.

Lemma rm_cases : forall l p r l', denylist4_rm l p = (r, l') ->
  (r = OK /\ cnt l p = S (cnt l' p) /\ (forall q, q <> p -> cnt l' q = cnt l q) /\ incl l' l) \/
  (r = Err ESRCH /\ cnt l p = O /\ l' = l).
Proof.
  induction l as [|x l IH]; intros p r l' H; cbn [denylist4_rm] in H.
  - injection H as <- <-. right. auto.
  - destruct (prefix4_equals p x) eqn:E.
    + injection H as <- <-. apply prefix4_eqb in E. subst x. left. split; [reflexivity|].
      unfold cnt; cbn [count_occ]. split; [destruct (prefix4_dec p p); [reflexivity|congruence]|].
      split; [intros q Hq; destruct (prefix4_dec p q); [congruence|reflexivity]|]. apply incl_tl, incl_refl.
    + destruct (denylist4_rm l p) as [r0 l0] eqn:E0. injection H as <- <-.
      assert (Hxp : x <> p) by (intros ->; assert (prefix4_equals p p = true) by (apply prefix4_eqb; reflexivity); congruence).
      destruct (IH p r0 l0 E0) as [(-> & H1 & H2 & H3)|(-> & H1 & ->)].
      * left. split; [reflexivity|]. unfold cnt in *; cbn [count_occ].
        split; [destruct (prefix4_dec x p); [congruence|exact H1]|].
        split; [intros q Hq; specialize (H2 q Hq); destruct (prefix4_dec x q); congruence|].
        intros y [<-|Hy]; [left; reflexivity|right; auto].
      * right. split; [reflexivity|]. split; [|reflexivity]. unfold cnt in *; cbn [count_occ].
        destruct (prefix4_dec x p); [congruence|exact H1].
Qed.

Lemma step_ok : forall l o r l', wt_dop o -> stored_ok l -> deny_step l o = (r, l') ->
  deny_spec (cnt l) o r (cnt l') /\ stored_ok l'.
Proof.
  intros l [p f m|p|m] r l' Hw Hs H; cbn [deny_step wt_dop] in *.
  - unfold denylist4_add in H. destruct (prefix4_validate p) as [|e] eqn:Ev.
    + destruct (prefix4_validate_scope p f) as [|e] eqn:Es.
      * assert (Ha : admissible p f) by (apply admissible_spec; auto).
        destruct m; injection H as <- <-.
        -- split.
           ++ apply SAdd; auto; unfold cnt.
              ** rewrite count_occ_app. cbn [count_occ]. destruct (prefix4_dec p p); [lia|congruence].
              ** intros q Hq. rewrite count_occ_app. cbn [count_occ]. destruct (prefix4_dec p q); [congruence|lia].
           ++ apply Forall_app. split; [exact Hs|]. constructor; [|constructor]. split; [auto|apply Ha].
        -- split; [apply SAddNoMem; auto|exact Hs].
      * injection H as <- <-. rewrite (validate_scope_err _ _ _ Es). split; [|exact Hs]. apply SAddBad. intros Ha.
        apply admissible_spec in Ha; auto. destruct Ha. congruence.
    + injection H as <- <-. rewrite (validate_err _ _ Ev). split; [|exact Hs]. apply SAddBad. intros Ha.
      apply admissible_spec in Ha; auto. destruct Ha. congruence.
  - destruct (rm_cases l p r l' H) as [(-> & H1 & H2 & H3)|(-> & H1 & ->)].
    + split; [apply SRm; auto|]. unfold stored_ok in *. rewrite Forall_forall in *. auto.
    + split; [apply SRmNone; auto|exact Hs].
  - unfold denylist4_flush in H. destruct m; injection H as <- <-.
    + split; [apply SFlush; reflexivity|constructor].
    + split; [apply SFlushNoMem|exact Hs].
Qed.

Lemma run_ok : forall ops l rs l', Forall wt_dop ops -> stored_ok l -> deny_run l ops = (rs, l') ->
  deny_spec_run (cnt l) ops rs (cnt l') /\ stored_ok l'.
Proof.
  induction ops as [|o ops IH]; intros l rs l' Hw Hs H; cbn [deny_run] in H.
  - injection H as <- <-. split; [constructor; reflexivity|exact Hs].
  - inversion Hw as [|? ? Hw1 Hw2]; subst. destruct (deny_step l o) as [r l1] eqn:E1.
    destruct (deny_run l1 ops) as [rs2 l2] eqn:E2. injection H as <- <-.
    destruct (step_ok l o r l1 Hw1 Hs E1) as [H1 H2]. destruct (IH l1 rs2 l2 Hw2 H2 E2) as [H3 H4].
    split; [econstructor; eauto|exact H4].
Qed.

Lemma cnt_in : forall l p, (0 < cnt l p)%nat <-> In p l.
Proof. intros l p. unfold cnt. rewrite (count_occ_In prefix4_dec). lia. Qed.

Lemma contains_ok : forall l a, stored_ok l -> is_u32 a ->
  denylist4_contains l a = true <-> exists p, (0 < cnt l p)%nat /\ in_prefix 32 (p4_addr p) (p4_len p) a.
Proof.
  intros l a Hs Ha. unfold denylist4_contains. rewrite existsb_exists. unfold stored_ok in Hs. rewrite Forall_forall in Hs.
  split; intros (p & Hp & H); exists p.
  - destruct (Hs p Hp) as [[Hw1 Hw2] Hl]. unfold is_u8 in Hw2. split; [apply cnt_in; auto|]. apply prefix4_contains_spec; auto. lia.
  - apply cnt_in in Hp. destruct (Hs p Hp) as [[Hw1 Hw2] Hl]. unfold is_u8 in Hw2. split; [auto|]. apply prefix4_contains_spec; auto. lia.
Qed.

Lemma display_ok : forall l caps, (forall p, (cnt l p <= 1)%nat) -> Forall (fun c => (1 <= c)%nat) caps ->
  (length l < length caps)%nat -> denylist4_display l caps = LDone l.
Proof.
  intros l caps Hc. apply list_pages_exact; [exact prefix4_eqb|].
  apply (NoDup_count_occ prefix4_dec). exact Hc.
Qed.
