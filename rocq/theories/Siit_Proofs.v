Require Import Verif.Base Verif.Addr_Model Verif.Addr_Spec Verif.Addr_Proofs Verif.Addr_Properties.
Require Import Verif.Rtrie_Model Verif.Rtrie_Spec Verif.Rtrie_Key Verif.Rtrie_Proofs Verif.Rtrie_Steps Verif.Rtrie_Hist Verif.Eam_Model Verif.Eam_Spec Verif.Eam_Bits Verif.Eam_Proofs Verif.Eam_Values Verif.Eam_Properties.
Require Import Verif.Deny_Model Verif.Deny_Spec Verif.Deny_Proofs.
Require Import Verif.Siit_Model Verif.Siit_Spec.
Local Ltac Zify.zify_post_hook ::= Z.div_mod_to_equations.

(** ** The pieces *)
Lemma illegal_spec : forall a, is_u128 a -> is_illegal_source a = true <-> a = loopback6.
Proof.
  intros a Ha. unfold is_illegal_source, loopback6, quadrant, is_u128 in *.
  change (32 * (3 - 0)) with 96. change (32 * (3 - 1)) with 64. change (32 * (3 - 2)) with 32. change (32 * (3 - 3)) with 0.
  rewrite !andb_true_iff, !Z.eqb_eq.
  change (2^96) with 79228162514264337593543950336. change (2^64) with 18446744073709551616.
  change (2^32) with 4294967296. change (2^0) with 1. change (2^128) with 340282366920938463463374607431768211456 in Ha.
  split; [intros [[[? ?] ?] ?]; lia|intros ->; vm_compute; auto].
Qed.

Lemma scope_addr : forall a, is_u32 a -> addr4_is_scope_subnet a = true <-> subnet_scoped a.
Proof.
  intros a Ha. unfold addr4_is_scope_subnet, subnet_scoped. rewrite !orb_true_iff, !Z.eqb_eq.
  pose proof (fun k Hk => land_mask 32 k a Hk Ha) as L. unfold is_u32 in Ha.
  pose proof (L 24 ltac:(lia)) as L24. pose proof (L 16 ltac:(lia)) as L16. pose proof (L 28 ltac:(lia)) as L28.
  change (2^32 - 2^24) with 0xff000000 in L24. change (2^32 - 2^16) with 0xffff0000 in L16.
  change (2^32 - 2^28) with 0xf0000000 in L28. rewrite L24, L16, L28.
  change (2^24) with 16777216. change (2^16) with 65536. change (2^28) with 268435456. change (2^32) with 4294967296 in *.
  split; [intros [[[[H|H]|H]|H]|H]|intros [H|[H|[H|[H|H]]]]]; lia.
Qed.

Lemma lor_ones : forall a k, 0 <= k -> Z.lor a (2^k - 1) = (a / 2^k) * 2^k + (2^k - 1).
Proof.
  intros a k Hk. replace (2^k - 1) with (Z.ones k) by (rewrite Z.ones_equiv; lia).
  replace ((a / 2^k) * 2^k) with (Z.ldiff a (Z.ones k)).
  2: { rewrite Z.ldiff_ones_r by lia. rewrite Z.shiftl_mul_pow2, Z.shiftr_div_pow2 by lia. reflexivity. }
  rewrite Z.add_nocarry_lxor, Z.lxor_lor.
  - apply Z.bits_inj'. intros n Hn. rewrite !Z.lor_spec, Z.ldiff_spec. destruct (Z.testbit a n), (Z.testbit (Z.ones k) n); reflexivity.
  - apply Z.bits_inj'. intros n Hn. rewrite Z.land_spec, Z.ldiff_spec, Z.bits_0. destruct (Z.testbit a n), (Z.testbit (Z.ones k) n); reflexivity.
  - apply Z.bits_inj'. intros n Hn. rewrite Z.land_spec, Z.ldiff_spec, Z.bits_0. destruct (Z.testbit a n), (Z.testbit (Z.ones k) n); reflexivity.
Qed.

Lemma own_spec : forall c a, wf_site c -> is_u32 a -> interface_contains (t_ifas c) a = true <-> own c a.
Proof.
  intros c a (_ & Wi & _) Ha. unfold interface_contains, own. rewrite existsb_exists.
  split; intros (i & Hi & H); exists i; (split; [exact Hi|]); destruct (Wi i Hi) as (W1 & W2 & W3);
    unfold check_ifa in *; rewrite ?orb_true_iff, ?andb_true_iff, ?Z.eqb_eq, ?Z.ltb_lt in *;
    set (k := 32 - ifa_prefixlen i) in *;
    assert (K : 0 <= k <= 32) by lia;
    assert (P : 0 < 2 ^ k <= 2 ^ 32) by (split; [apply Z.pow_pos_nonneg; lia|apply Z.pow_le_mono_r; lia]);
    assert (E : u32 (Z.lnot (ifa_mask i)) = 2 ^ k - 1)
      by (rewrite W3; unfold u32, Z.lnot; symmetry; apply Z.mod_unique with (q := -1); [left; lia|lia]);
    rewrite E, lor_ones in * by lia; fold k.
  - destruct H as [[H1 H2]|H]; [right|left; auto]. split; [auto|]. unfold in_prefix. fold k. subst a.
    pose proof (Z.mod_pos_bound (ifa_local i) (2^k) ltac:(lia)).
    split.
    + rewrite Z.div_add_l by lia. rewrite (Z.div_small (2^k - 1)) by lia. lia.
    + rewrite Z.add_comm, Z.mod_add by lia. apply Z.mod_small. lia.
  - destruct H as [H|(H1 & H2 & H3)]; [right; auto|left]. split; [auto|]. unfold in_prefix in H2. fold k in H2, H3.
    rewrite <- H2. pose proof (Z.div_mod a (2^k) ltac:(lia)). lia.
Qed.

Lemma deny_contains : forall c a, wf_site c -> is_u32 a -> denylist4_contains (t_deny c) a = true <-> denylisted c a.
Proof.
  intros c a (Wd & _) Ha. unfold denylist4_contains, denylisted. rewrite existsb_exists.
  split; intros (p & Hp & H); exists p; (split; [exact Hp|]); destruct (Wd p Hp) as (W1 & W2);
    apply prefix4_validate_spec in W2; auto; destruct W1 as [W1 W1'], W2 as [W2 _]; unfold is_u8 in W1'.
  - apply prefix4_contains_spec in H; auto. lia.
  - apply prefix4_contains_spec; auto. lia.
Qed.

(** ** The model and the operator's view *)
Lemma view_inv : forall st c, view st c -> EInv (s_eamt st) (t_tbl c).
Proof.
  intros st c ((ops & rs & Ht & Er) & Ef & _).
  destruct (eam_run_ok ops eamt_alloc [] alloc_inv Ht) as (rs' & t' & tbl & E & _ & I).
  rewrite Er in E. injection E as <- <-. apply EInv_perm with (l := tbl); [exact I|].
  destruct I as (_ & I4 & _). destruct (foreach_ok _ _ I4) as (l & El & Pl).
  unfold eamt_foreach in Ef. cbn [option_map] in Ef. rewrite El in Ef. injection Ef as <-. symmetry. rewrite Pl.
  unfold tab. rewrite map_map. cbn [snd]. rewrite map_id. reflexivity.
Qed.

Lemma tbl_unique6 : forall st c a e e', view st c -> is_u128 a -> In e (t_tbl c) -> In e' (t_tbl c) ->
  in6 (e_p6 e) a -> in6 (e_p6 e') a -> e = e'.
Proof.
  intros st c a e e' V Ha H H' A A'. destruct (view_inv st c V) as (_ & _ & _ & _ & D).
  destruct (in_split _ _ H) as (l1 & l2 & El). rewrite El in *. apply in_app_or in H'.
  destruct H' as [H'|[H'|H']]; auto; exfalso;
    (destruct (disjoint_split l1 e l2 D e') as [X _]; [apply in_or_app; auto|]; apply X; exists a; auto).
Qed.
Lemma tbl_unique4 : forall st c a e e', view st c -> is_u32 a -> In e (t_tbl c) -> In e' (t_tbl c) ->
  in4 (e_p4 e) a -> in4 (e_p4 e') a -> e = e'.
Proof.
  intros st c a e e' V Ha H H' A A'. destruct (view_inv st c V) as (_ & _ & _ & _ & D).
  destruct (in_split _ _ H) as (l1 & l2 & El). rewrite El in *. apply in_app_or in H'.
  destruct H' as [H'|[H'|H']]; auto; exfalso;
    (destruct (disjoint_split l1 e l2 D e') as [_ X]; [apply in_or_app; auto|]; apply X; exists a; auto).
Qed.

Lemma tbl_good : forall st c e, view st c -> In e (t_tbl c) -> good e.
Proof. intros st c e V H. destruct (view_inv st c V) as (_ & _ & _ & G & _). rewrite Forall_forall in G. auto. Qed.

(** Values through one mapping *)
Lemma pow_le : forall a b, 0 <= a <= b -> 0 < 2^a <= 2^b.
Proof. intros. split; [apply Z.pow_pos_nonneg; lia|apply Z.pow_le_mono_r; lia]. Qed.

Lemma good_suffix : forall e, good e -> 0 <= suffix4 e <= 32 /\ suffix4 e <= suffix6 e <= 128 /\
  p4_addr (e_p4 e) mod 2 ^ suffix4 e = 0 /\ p6_addr (e_p6 e) mod 2 ^ suffix6 e = 0.
Proof.
  intros e G. destruct (good_facts e G) as (_ & A & _ & B). destruct G as (_ & L1 & L2 & L3 & L4 & L5).
  unfold suffix4, suffix6. repeat split; try lia; auto.
Qed.

Lemma in_prefix_mod : forall w base len a, 0 <= len <= w -> base mod 2^(w - len) = 0 ->
  in_prefix w base len a -> a = base + a mod 2^(w - len).
Proof.
  intros w base len a Hl Hb H. unfold in_prefix in H.
  assert (P : 0 < 2^(w - len)) by (apply Z.pow_pos_nonneg; lia).
  pose proof (Z.div_mod a (2^(w - len)) ltac:(lia)) as E1. pose proof (Z.div_mod base (2^(w - len)) ltac:(lia)) as E2.
  rewrite Hb in E2. rewrite H in E1. lia.
Qed.

Lemma add_mod : forall base x m, 0 < m -> base mod m = 0 -> 0 <= x < m -> (base + x) mod m = x.
Proof.
  intros base x m Hm Hb Hx. rewrite Z.add_mod, Hb, Z.add_0_l, Z.mod_mod by lia. apply Z.mod_small. lia.
Qed.

Lemma eam64_value : forall e a6 a4, good e -> is_u128 a6 ->
  (is_u32 a4 /\ in4 (e_p4 e) a4 /\ a4 mod 2 ^ suffix4 e = (a6 / 2 ^ (suffix6 e - suffix4 e)) mod 2 ^ suffix4 e) <->
  a4 = eam_xlat_6to4 e a6.
Proof.
  intros e a6 a4 G H6. destruct (good_suffix e G) as (S1 & S2 & S3 & S4).
  destruct (good_facts e G) as (A1 & A2 & A3 & A4).
  rewrite (xlat64_val e a6 G H6). fold (suffix4 e) (suffix6 e).
  pose proof (pow_le (suffix4 e) 32 S1) as P.
  pose proof (Z.mod_pos_bound (a6 / 2 ^ (suffix6 e - suffix4 e)) (2 ^ suffix4 e) ltac:(lia)) as B.
  split.
  - intros (U & I4 & E). rewrite <- E. unfold in4 in I4. apply in_prefix_mod in I4; auto. 
  - intros E. 
    assert (I4 : in4 (e_p4 e) a4) by (rewrite E; apply in_prefix_add; auto).
    split; [|split; [exact I4|]].
    + assert (X : eam_xlat_6to4 e a6 = a4) by (rewrite (xlat64_val e a6 G H6); symmetry; exact E). rewrite <- X.
      apply C04_eam_6to4; auto; [apply G|]. apply C04_entry_admission; apply G.
    + rewrite E at 1. apply add_mod; auto. lia.
Qed.

Lemma eam46_value : forall e a4 a6, good e -> is_u32 a4 ->
  (is_u128 a6 /\ in6 (e_p6 e) a6 /\ a6 mod 2 ^ suffix6 e = (a4 mod 2 ^ suffix4 e) * 2 ^ (suffix6 e - suffix4 e)) <->
  a6 = eam_xlat_4to6 e a4.
Proof.
  intros e a4 a6 G H4. destruct (good_suffix e G) as (S1 & S2 & S3 & S4).
  destruct (good_facts e G) as (A1 & A2 & A3 & A4).
  rewrite (xlat46_val e a4 G). fold (suffix4 e) (suffix6 e).
  pose proof (pow_le (suffix4 e) 32 S1) as P.
  pose proof (Z.mod_pos_bound a4 (2 ^ suffix4 e) ltac:(lia)) as B.
  assert (B' : 0 <= (a4 mod 2 ^ suffix4 e) * 2 ^ (suffix6 e - suffix4 e) < 2 ^ suffix6 e).
  { assert (Q : 2 ^ suffix6 e = 2 ^ suffix4 e * 2 ^ (suffix6 e - suffix4 e)) by (rewrite <- Z.pow_add_r by lia; f_equal; lia).
    rewrite Q. pose proof (pow_le 0 (suffix6 e - suffix4 e) ltac:(lia)). nia. }
  split.
  - intros (U & I6 & E). rewrite <- E. unfold in6 in I6. apply in_prefix_mod in I6; auto.
  - intros E.
    assert (I6 : in6 (e_p6 e) a6) by (rewrite E; apply in_prefix_add; auto).
    split; [|split; [exact I6|]].
    + assert (X : eam_xlat_4to6 e a4 = a6) by (rewrite (xlat46_val e a4 G); symmetry; exact E). rewrite <- X.
      apply C04_eam_4to6; auto; [apply G|]. apply C04_entry_admission; apply G.
    + rewrite E at 1. apply add_mod; auto. apply Z.pow_pos_nonneg; lia.
Qed.

(** Values through pool6 *)
Lemma octets_ext : forall n a b, (forall i, (i < n)%nat -> octet n a i = octet n b i) -> octets n a = octets n b.
Proof. intros n a b H. unfold octets. apply map_ext_in. intros i Hi. apply in_seq in Hi. apply H. lia. Qed.

Lemma octet4_inj : forall a b, is_u32 a -> is_u32 b ->
  (forall i, 0 <= i < 4 -> octet 4 a (Z.to_nat i) = octet 4 b (Z.to_nat i)) -> a = b.
Proof.
  intros a b Ha Hb H. apply (octets_inj 4); [exact Ha|exact Hb|]. apply octets_ext. intros i Hi.
  specialize (H (Z.of_nat i)). rewrite Nat2Z.id in H. apply H. lia.
Qed.

Lemma octet16_inj : forall a b, 0 <= a < 2^128 -> 0 <= b < 2^128 ->
  (forall i, 0 <= i < 16 -> octet 16 a (Z.to_nat i) = octet 16 b (Z.to_nat i)) -> a = b.
Proof.
  intros a b Ha Hb H. apply (octets_inj 16); [exact Ha|exact Hb|]. apply octets_ext. intros i Hi.
  specialize (H (Z.of_nat i)). rewrite Nat2Z.id in H. apply H. lia.
Qed.

Lemma pool64_value : forall p f a6 a4, wt_prefix6 p -> pool6_validate p f = OK -> is_u128 a6 ->
  (in6 p a6 /\ is_u32 a4 /\
   (forall i, 0 <= i < 4 -> octet 4 a4 (Z.to_nat i) = octet 16 a6 (Z.to_nat (rfc6052_pos (p6_len p) i)))) <->
  rfc6052_6to4 p a6 = Some a4.
Proof.
  intros p f a6 a4 W V H6. split.
  - intros (I6 & U & O). destruct (rfc6052_6to4 p a6) as [r|] eqn:E.
    + f_equal. destruct (C02_6to4_extracts p f a6 r V E) as [B X]. apply octet4_inj; auto.
      intros i Hi. rewrite X, O; auto.
    + exfalso. apply (C02_6to4_fails_iff_outside p f a6 W V H6) in E. exact (E I6).
  - intros E. destruct (C02_6to4_extracts p f a6 a4 V E) as [B X]. split; [|split; [exact B|exact X]].
    destruct (Z.eq_dec (a6 / 2 ^ (128 - p6_len p)) (p6_addr p / 2 ^ (128 - p6_len p))) as [D|D]; [exact D|].
    exfalso. assert (N : rfc6052_6to4 p a6 = None) by (apply (C02_6to4_fails_iff_outside p f a6 W V H6); exact D). congruence.
Qed.

Lemma pool46_value : forall p f a4 a6, pool6_validate p f = OK ->
  rfc6052_layout (p6_addr p) (p6_len p) a4 a6 <-> rfc6052_4to6 p a4 = Some a6.
Proof.
  intros p f a4 a6 V. destruct (C02_rfc6052_layout p f a4 V) as (r & E & L). rewrite E. split.
  - intros L'. f_equal. destruct L as [B O], L' as [B' O']. apply octet16_inj; auto. intros i Hi. rewrite O, O'; auto.
  - intros [= <-]. exact L.
Qed.

(** ** Determinism of the specification *)
Lemma stands_for_unique : forall st c a6 a4 h a4' h', view st c -> wf_site c -> is_u128 a6 ->
  stands_for c a6 a4 h -> stands_for c a6 a4' h' -> a4 = a4' /\ h = h'.
Proof.
  intros st c a6 a4 h a4' h' V W H6 S S'. destruct W as (_ & _ & Wp & _).
  destruct S as [e He I6 U I4 X|p N Hp I6 U X]; destruct S' as [e' He' I6' U' I4' X'|p' N' Hp' I6' U' X'].
  - assert (e = e') by (eapply tbl_unique6; eauto). subst e'. pose proof (tbl_good st c e V He) as G. split; [|reflexivity].
    transitivity (eam_xlat_6to4 e a6); [|symmetry]; apply eam64_value; auto.
  - exfalso. exact (N' e He I6).
  - exfalso. exact (N e' He' I6').
  - assert (p' = p) by congruence. subst p'. destruct (Wp p Hp) as (W1 & f & W2). split; [|reflexivity].
    apply octet4_inj; auto. intros i Hi. rewrite X, X'; auto.
Qed.

Lemma represents_unique : forall st c a4 a6 h a6' h', view st c -> wf_site c -> is_u32 a4 ->
  represents c a6 a4 h -> represents c a6' a4 h' -> a6 = a6' /\ h = h'.
Proof.
  intros st c a4 a6 h a6' h' V W H4 S S'. destruct W as (_ & _ & Wp & _).
  destruct S as [e He I4 U I6 X|p N Hp X]; destruct S' as [e' He' I4' U' I6' X'|p' N' Hp' X'].
  - assert (e = e') by (eapply tbl_unique4; eauto). subst e'. pose proof (tbl_good st c e V He) as G. split; [|reflexivity].
    transitivity (eam_xlat_4to6 e a4); [|symmetry]; apply eam46_value; auto.
  - exfalso. exact (N' e He I4).
  - exfalso. exact (N e' He' I4').
  - assert (p' = p) by congruence. subst p'. destruct (Wp p Hp) as (W1 & f & W2). split; [|reflexivity].
    apply pool46_value with (f := f) in X; auto. apply pool46_value with (f := f) in X'; auto. congruence.
Qed.

(** ** One address *)
Definition meth (h : how) : method := match h with ByPool6 p => AXM_RFC6052 p | ByEam e => AXM_EAMT e end.

Lemma must_not_spec : forall st c a, view st c -> wf_site c -> is_u32 a ->
  must_not_translate st a = true <-> (subnet_scoped a \/ own c a).
Proof.
  intros st c a (_ & _ & _ & Ei & _) W Ha. unfold must_not_translate. rewrite <- Ei, orb_true_iff.
  rewrite (scope_addr a Ha), (own_spec c a W Ha). reflexivity.
Qed.

Lemma lookup6 : forall st c a6, view st c -> is_u128 a6 ->
  (exists e, eamt_xlat_6to4 (s_eamt st) a6 = Ok (Some (eam_xlat_6to4 e a6, e)) /\ In e (t_tbl c) /\ in6 (e_p6 e) a6) \/
  (eamt_xlat_6to4 (s_eamt st) a6 = Ok None /\ forall e, In e (t_tbl c) -> ~ in6 (e_p6 e) a6).
Proof.
  intros st c a6 V Ha. destruct (find6 _ _ a6 (view_inv st c V) Ha) as (r & E & H). unfold eamt_xlat_6to4. rewrite E. cbn [bind].
  destruct r as [e|]; [left; exists e; destruct H as (? & ? & _); auto|right; auto].
Qed.
Lemma lookup4 : forall st c a4, view st c -> is_u32 a4 ->
  (exists e, eamt_xlat_4to6 (s_eamt st) a4 = Ok (Some (eam_xlat_4to6 e a4, e)) /\ In e (t_tbl c) /\ in4 (e_p4 e) a4) \/
  (eamt_xlat_4to6 (s_eamt st) a4 = Ok None /\ forall e, In e (t_tbl c) -> ~ in4 (e_p4 e) a4).
Proof.
  intros st c a4 V Ha. destruct (find4 _ _ a4 (view_inv st c V) Ha) as (r & E & H). unfold eamt_xlat_4to6. rewrite E. cbn [bind].
  destruct r as [e|]; [left; exists e; destruct H as (? & ? & _); auto|right; auto].
Qed.

Lemma success_spec : forall st c a4 h chk, view st c -> wf_site c -> is_u32 a4 ->
  (chk = true -> forall p, h = ByPool6 p -> ~ denylisted c a4) ->
  (siit64_success st a4 (meth h) chk = XContinue a4 (meth h) /\ (chk = true -> permitted c a4 h)) \/
  (siit64_success st a4 (meth h) chk = XAccept /\ chk = true /\ ~ permitted c a4 h).
Proof.
  intros st c a4 h chk V W H4 D. unfold siit64_success. pose proof (must_not_spec st c a4 V W H4) as M.
  destruct chk; cbn [andb].
  - destruct (must_not_translate st a4) eqn:E.
    + right. split; [reflexivity|]. split; [reflexivity|]. intros (P1 & P2 & _). destruct M as [M _]. specialize (M eq_refl). tauto.
    + left. split; [reflexivity|]. intros _.
      split; [intros X; apply or_introl with (B := own c a4) in X; apply M in X; discriminate|].
      split; [intros X; assert (Y : subnet_scoped a4 \/ own c a4) by auto; apply M in Y; discriminate|]. exact (D eq_refl).
  - left. split; [reflexivity|discriminate].
Qed.

Lemma one64 : forall st c a6 chk, view st c -> wf_site c -> is_u128 a6 ->
  exists v, addrxlat_siit64 st a6 chk = Ok v /\
  match v with
  | XContinue a4 m => a6 <> loopback6 /\ is_u32 a4 /\
      exists h, m = meth h /\ stands_for c a6 a4 h /\ (chk = true -> permitted c a4 h)
  | XTryElse => a6 <> loopback6 /\ forall a4 h, ~ stands_for c a6 a4 h
  | XAccept => a6 = loopback6 \/ (chk = true /\ exists a4 h, stands_for c a6 a4 h /\ ~ permitted c a4 h)
  | XDrop => False
  end.
Proof.
  intros st c a6 chk V W H6. unfold addrxlat_siit64. pose proof (illegal_spec a6 H6) as Il.
  destruct (is_illegal_source a6).
  { eexists. split; [reflexivity|]. left. apply Il. reflexivity. }
  assert (N1 : a6 <> loopback6) by (intros X; apply Il in X; discriminate).
  destruct (lookup6 st c a6 V H6) as [(e & E & He & I6)|(E & N)]; rewrite E; cbn [bind].
  - pose proof (tbl_good st c e V He) as G. destruct (proj2 (eam64_value e a6 _ G H6) eq_refl) as (U & I4 & X).
    assert (S : stands_for c a6 (eam_xlat_6to4 e a6) (ByEam e)) by (constructor; auto).
    eexists. split; [reflexivity|]. change (AXM_EAMT e) with (meth (ByEam e)).
    destruct (success_spec st c (eam_xlat_6to4 e a6) (ByEam e) chk V W U ltac:(intros; discriminate)) as [(-> & P)|(-> & P1 & P2)].
    + split; [auto|]. split; [auto|]. eexists. split; [reflexivity|]. split; [exact S|exact P].
    + right. split; [auto|]. do 2 eexists. split; [exact S|exact P2].
  - pose proof V as (_ & _ & Vd & _ & Vp & _). rewrite <- Vp. destruct W as (W1 & W2 & W3 & W4).
    destruct (t_pool6 c) as [p|] eqn:Ep.
    2: { eexists. split; [reflexivity|]. split; [auto|]. intros a4 h S. destruct S; [eapply N; eauto|congruence]. }
    destruct (W3 p eq_refl) as (Wp & f & Wv).
    destruct (rfc6052_6to4 p a6) as [a4|] eqn:E6.
    2: { eexists. split; [reflexivity|]. split; [auto|]. intros a4 h S. destruct S as [|p' N' Hp I6 U X]; [eapply N; eauto|].
         rewrite Ep in Hp. injection Hp as <-. apply (C02_6to4_fails_iff_outside p f a6 Wp Wv H6) in E6. exact (E6 I6). }
    pose proof (proj2 (pool64_value p f a6 a4 Wp Wv H6) E6) as (I6 & U & X).
    assert (S : stands_for c a6 a4 (ByPool6 p)) by (constructor; auto).
    assert (W : wf_site c) by (split; [auto|]; split; [auto|]; split; [intros q; rewrite Ep; apply W3|exact W4]).
    pose proof (deny_contains c a4 W U) as D. rewrite Vd in D.
    destruct (chk && denylist4_contains (s_deny st) a4) eqn:C.
    + apply andb_true_iff in C. destruct C as [-> C]. eexists. split; [reflexivity|]. right. split; [reflexivity|].
      exists a4, (ByPool6 p). split; [exact S|]. intros (_ & _ & P). eapply P; [reflexivity|]. apply D. exact C.
    + eexists. split; [reflexivity|]. change (AXM_RFC6052 p) with (meth (ByPool6 p)).
      assert (Q : chk = true -> forall q, ByPool6 p = ByPool6 q -> ~ denylisted c a4)
        by (intros -> q _ Y; cbn [andb] in C; apply D in Y; congruence).
      destruct (success_spec st c a4 (ByPool6 p) chk V W U Q) as [(-> & P)|(-> & P1 & P2)].
      * split; [auto|]. split; [auto|]. eexists. split; [reflexivity|]. split; [exact S|exact P].
      * right. split; [auto|]. do 2 eexists. split; [exact S|exact P2].
Qed.

Definition sitef (eam : bool) (c : site) : site := if eam then c else unmapped c.

Lemma one46 : forall st c a4 eam chk, view st c -> wf_site c -> is_u32 a4 ->
  exists v, addrxlat_siit46 st a4 eam chk = Ok v /\
  match v with
  | XContinue a6 m => is_u128 a6 /\ exists h, m = meth h /\ represents (sitef eam c) a6 a4 h /\
      (forall p, h = ByPool6 p -> ~ denylisted c a4) /\ (chk = true -> permitted c a4 h)
  | XTryElse => (forall a6 h, ~ represents (sitef eam c) a6 a4 h) /\ (chk = true -> ~ subnet_scoped a4 /\ ~ own c a4)
  | XAccept => (chk = true /\ (subnet_scoped a4 \/ own c a4)) \/
      (denylisted c a4 /\ forall e, In e (t_tbl (sitef eam c)) -> ~ in4 (e_p4 e) a4)
  | XDrop => False
  end.
Proof.
  intros st c a4 eam chk V W H4. unfold addrxlat_siit46. pose proof (must_not_spec st c a4 V W H4) as M.
  destruct (chk && must_not_translate st a4) eqn:C.
  { apply andb_true_iff in C. destruct C as [-> C]. eexists. split; [reflexivity|]. left. split; [reflexivity|]. apply M. exact C. }
  assert (F : chk = true -> ~ subnet_scoped a4 /\ ~ own c a4).
  { intros ->. cbn [andb] in C. split; intros X; [assert (Y : subnet_scoped a4 \/ own c a4) by auto|assert (Y : subnet_scoped a4 \/ own c a4) by auto];
      apply M in Y; congruence. }
  assert (P : (forall e, In e (t_tbl (sitef eam c)) -> ~ in4 (e_p4 e) a4) ->
    exists v, Ok (siit46_pool6 st a4) = Ok v /\
    match v with
    | XContinue a6 m => is_u128 a6 /\ exists h, m = meth h /\ represents (sitef eam c) a6 a4 h /\
        (forall p, h = ByPool6 p -> ~ denylisted c a4) /\ (chk = true -> permitted c a4 h)
    | XTryElse => (forall a6 h, ~ represents (sitef eam c) a6 a4 h) /\ (chk = true -> ~ subnet_scoped a4 /\ ~ own c a4)
    | XAccept => (chk = true /\ (subnet_scoped a4 \/ own c a4)) \/
        (denylisted c a4 /\ forall e, In e (t_tbl (sitef eam c)) -> ~ in4 (e_p4 e) a4)
    | XDrop => False
    end).
  { intros N. eexists. split; [reflexivity|]. unfold siit46_pool6. pose proof V as (_ & _ & Vd & _ & Vp & _).
    pose proof (deny_contains c a4 W H4) as D. rewrite Vd in D. rewrite <- Vp.
    assert (Ep : t_pool6 (sitef eam c) = t_pool6 c) by (destruct eam; reflexivity).
    destruct (denylist4_contains (s_deny st) a4); [right; split; [apply D; reflexivity|exact N]|].
    destruct (t_pool6 c) as [p|] eqn:E.
    - destruct W as (_ & _ & W3 & _). destruct (W3 p E) as (Wp & f & Wv).
      destruct (C02_rfc6052_layout p f a4 Wv) as (r & Er & L). rewrite Er.
      split; [exact (proj1 L)|]. exists (ByPool6 p). split; [reflexivity|].
      split; [constructor; auto|]. assert (Nd : ~ denylisted c a4) by (intros X; apply D in X; discriminate).
      split; [auto|]. intros Hc. destruct (F Hc). repeat split; auto.
    - split; [|exact F]. intros a6 h R. destruct R; [eapply N; eauto|congruence]. }
  destruct eam; [|apply P; intros e []].
  destruct (lookup4 st c a4 V H4) as [(e & E & He & I4)|(E & N)]; rewrite E; cbn [bind]; [|apply P; exact N].
  pose proof (tbl_good st c e V He) as G. destruct (proj2 (eam46_value e a4 _ G H4) eq_refl) as (U & I6 & X).
  eexists. split; [reflexivity|]. split; [exact U|]. exists (ByEam e). split; [reflexivity|].
  split; [constructor; auto|]. split; [intros p [=]|]. intros Hc. destruct (F Hc). repeat split; auto. intros p [=].
Qed.

Lemma contains4 : forall st c a, view st c -> is_u32 a ->
  exists b, eamt_contains4 (s_eamt st) a = Ok b /\ (b = true <-> exists e, In e (t_tbl c) /\ in4 (e_p4 e) a).
Proof.
  intros st c a V Ha. destruct (find4 _ _ a (view_inv st c V) Ha) as (r & Er & Hr).
  unfold eamt_contains4, rtrie_contains, rtrie_find in *.
  destruct (find_lcp (trie4 (s_eamt st)) (akey4 a) true) as [p| |]; cbn [bind] in *; try discriminate.
  eexists. split; [reflexivity|]. destruct p as [p|].
  - destruct (deref (trie4 (s_eamt st)) p) as [n| |]; cbn [bind] in Er; try discriminate.
    destruct (n_val n) as [v|]; [|discriminate]. injection Er as <-. destruct Hr as (H1 & H2 & _). split; [eauto|auto].
  - injection Er as <-. split; [discriminate|]. intros (e & He & Hin). exfalso. exact (Hr e He Hin).
Qed.

(** ** What the specification says about an address settles the model *)
Lemma x64 : forall st c a6 a4 h chk, view st c -> wf_site c -> is_u128 a6 ->
  a6 <> loopback6 -> stands_for c a6 a4 h -> (chk = true -> permitted c a4 h) ->
  addrxlat_siit64 st a6 chk = Ok (XContinue a4 (meth h)).
Proof.
  intros st c a6 a4 h chk V W H6 N S P. destruct (one64 st c a6 chk V W H6) as (v & -> & X).
  destruct v as [a m| | |]; [|exfalso..].
  - destruct X as (_ & _ & h' & -> & S' & _). destruct (stands_for_unique st c a6 a4 h a h' V W H6 S S') as [-> ->]. reflexivity.
  - destruct X as (_ & X). exact (X a4 h S).
  - destruct X as [X|(Hc & a & h' & S' & Np)]; [exact (N X)|].
    destruct (stands_for_unique st c a6 a4 h a h' V W H6 S S') as [-> ->]. exact (Np (P Hc)).
  - exact X.
Qed.

Lemma rep_unique : forall st c eam a4 a6 h a6' h', view st c -> wf_site c -> is_u32 a4 ->
  represents (sitef eam c) a6 a4 h -> represents (sitef eam c) a6' a4 h' -> a6 = a6' /\ h = h'.
Proof.
  intros st c eam a4 a6 h a6' h' V W H4 S S'. destruct eam; [eapply represents_unique; eauto|].
  destruct W as (_ & _ & Wp & _).
  destruct S as [e []|p N Hp X]; destruct S' as [e []|p' N' Hp' X']. cbn [sitef unmapped t_pool6] in *.
  assert (p' = p) by congruence. subst p'. destruct (Wp p Hp) as (W1 & f & W2). split; [|reflexivity].
  apply pool46_value with (f := f) in X; auto. apply pool46_value with (f := f) in X'; auto. congruence.
Qed.

Lemma x46 : forall st c a4 a6 h eam chk, view st c -> wf_site c -> is_u32 a4 ->
  represents (sitef eam c) a6 a4 h -> (chk = true -> ~ subnet_scoped a4 /\ ~ own c a4) ->
  (forall p, h = ByPool6 p -> ~ denylisted c a4) ->
  addrxlat_siit46 st a4 eam chk = Ok (XContinue a6 (meth h)).
Proof.
  intros st c a4 a6 h eam chk V W H4 R P D. destruct (one46 st c a4 eam chk V W H4) as (v & -> & X).
  destruct v as [a m| | |]; [|exfalso..].
  - destruct X as (_ & h' & -> & R' & _). destruct (rep_unique st c eam a4 a6 h a h' V W H4 R R') as [-> ->]. reflexivity.
  - destruct X as (X & _). exact (X a6 h R).
  - destruct X as [(Hc & X)|(X & N)]; [destruct (P Hc); tauto|]. destruct R as [e He I4|p _ Hp L]; [exact (N e He I4)|].
    exact (D p eq_refl X).
  - exact X.
Qed.

Lemma rep_u128 : forall c a6 a4 h, represents c a6 a4 h -> is_u128 a6.
Proof. intros c a6 a4 h [e He I4 U I6 X|p N Hp L]; [exact U|exact (proj1 L)]. Qed.

Lemma layout_facts : forall c p a4 a6, wf_site c -> t_pool6 c = Some p -> is_u32 a4 ->
  rfc6052_layout (p6_addr p) (p6_len p) a4 a6 ->
  is_u128 a6 /\ in6 p a6 /\
  (forall i, 0 <= i < 4 -> octet 4 a4 (Z.to_nat i) = octet 16 a6 (Z.to_nat (rfc6052_pos (p6_len p) i))).
Proof.
  intros c p a4 a6 (_ & _ & Wp & _) Hp H4 L. destruct (Wp p Hp) as (W & f & Wv).
  apply pool46_value with (f := f) in L; auto.
  destruct (C01_rfc6052_roundtrip p f a4 W Wv H4) as (r & E & U & I & B). rewrite L in E. injection E as <-.
  split; [exact U|]. split; [exact I|]. apply (pool64_value p f a6 a4 W Wv U). exact B.
Qed.

(** An address that represents another also stands for it. *)
Lemma rep_stands : forall st c a6 a4 h, view st c -> wf_site c -> pool6_clear c -> is_u32 a4 ->
  represents c a6 a4 h -> stands_for c a6 a4 h.
Proof.
  intros st c a6 a4 h V W C H4 [e He I4 U I6 X|p N Hp L].
  - pose proof (tbl_good st c e V He) as G. assert (E : a6 = eam_xlat_4to6 e a4) by (apply eam46_value; auto).
    assert (B : a4 = eam_xlat_6to4 e a6) by (rewrite E; symmetry; apply xlat_round; auto).
    apply (eam64_value e a6 a4 G U) in B. destruct B as (_ & _ & B). constructor; auto.
  - destruct (layout_facts c p a4 a6 W Hp H4 L) as (U & I & B). constructor; auto.
    intros e He I6. apply (C p e Hp He). exists a6. auto.
Qed.

Lemma rep_unmapped_stands : forall c p a6 a4 h, wf_site c -> pool6_clear c -> is_u32 a4 -> t_pool6 c = Some p ->
  represents (unmapped c) a6 a4 h -> h = ByPool6 p /\ stands_for c a6 a4 h.
Proof.
  intros c p a6 a4 h W C H4 Ep [e []|q N Hp L]. cbn [unmapped t_pool6] in Hp. assert (q = p) by congruence. subst q.
  split; [reflexivity|]. destruct (layout_facts c p a4 a6 W Ep H4 L) as (U & I & B). constructor; auto.
  intros e He I6. apply (C p e Ep He). exists a6. auto.
Qed.

(** Representations of addresses that are not subnet-scoped are not special. *)
Lemma small_octets : forall a j, 0 <= a <= 1 -> 0 <= j < 16 -> octet 16 a (Z.to_nat j) = if j =? 15 then a else 0.
Proof.
  intros a j Ha Hj. assert (A : a = 0 \/ a = 1) by lia.
  assert (J : In j [0;1;2;3;4;5;6;7;8;9;10;11;12;13;14;15]) by (cbn [In]; lia).
  cbn [In] in J. destruct A as [-> | ->];
    repeat (destruct J as [<-|J]; [vm_compute; reflexivity|]); destruct J.
Qed.

Lemma pool_small : forall c p a4 a6, wf_site c -> t_pool6 c = Some p -> is_u32 a4 ->
  rfc6052_layout (p6_addr p) (p6_len p) a4 a6 -> ~ subnet_scoped a4 -> a6 <> 0 /\ a6 <> loopback6.
Proof.
  intros c p a4 a6 W Hp H4 L N. destruct (layout_facts c p a4 a6 W Hp H4 L) as (U & _ & B).
  destruct W as (_ & _ & Wp & _). destruct (Wp p Hp) as (W & f & Wv). pose proof (pool6_len p f Wv) as Hl.
  assert (X : ~ 0 <= a6 <= 1).
  { intros S. apply N. left.
    assert (O : forall i, 0 <= i < 3 -> octet 4 a4 (Z.to_nat i) = 0).
    { intros i Hi. rewrite B by lia. assert (P : 0 <= rfc6052_pos (p6_len p) i < 15).
      { unfold rfc6052_pos, rfc6052_len in *.
        destruct Hl as [-> | [-> | [-> | [-> | [-> | ->]]]]]; cbn [Z.eqb Pos.eqb]; try destruct (_ <? 8); lia. }
      rewrite small_octets by lia. destruct (_ =? 15) eqn:E; lia. }
    pose proof (O 0 ltac:(lia)) as O0. 
    unfold octet in O0. change (8 * (Z.of_nat 4 - 1 - Z.of_nat (Z.to_nat 0))) with 24 in O0. unfold is_u32 in H4.
    change (2 ^ 24) with 16777216 in *. change (2^32) with 4294967296 in H4. lia. }
  unfold loopback6, is_u128 in *. lia.
Qed.
