Require Import Verif.Base Verif.Addr_Model Verif.Addr_Spec.

(** ** IPv4 masks *)
Lemma shiftl_mask : forall k, 0 <= k <= 32 -> u32 (u64 (Z.shiftl 4294967295 k)) = 2^32 - 2^k.
Proof.
  intros k Hk. rewrite Z.shiftl_mul_pow2 by lia. unfold u32, u64.
  assert (H1 : 2^k <= 2^32) by (apply Z.pow_le_mono_r; lia).
  assert (H2 : 0 < 2^k) by (apply Z.pow_pos_nonneg; lia).
  rewrite Z.mod_small with (b := 2^64) by (split; [lia|]; change (2^64) with (2^32*2^32); nia).
  change 4294967295 with (2^32 - 1).
  replace ((2^32 - 1) * 2^k) with ((2^32 - 2^k) + (2^k - 1) * 2^32) by ring.
  rewrite Z.mod_add by lia. rewrite Z.mod_small; lia.
Qed.

Lemma mask4_val : forall p, 0 <= p4_len p <= 32 -> get_prefix4_mask p = 2^32 - 2^(32 - p4_len p).
Proof. intros. unfold get_prefix4_mask. apply shiftl_mask. lia. Qed.

(** Bits of a mask. *)
Lemma mask_testbit : forall w k i, 0 <= k <= w -> 0 <= i ->
  Z.testbit (2^w - 2^k) i = (k <=? i) && (i <? w).
Proof.
  intros w k i Hk Hi.
  replace (2^w - 2^k) with (Z.ones (w - k) * 2^k).
  2:{ rewrite Z.ones_equiv. rewrite <- Z.sub_1_r. rewrite Z.mul_sub_distr_r.
      rewrite <- Z.pow_add_r by lia. replace (w - k + k) with w by lia. lia. }
  rewrite <- Z.shiftl_mul_pow2 by lia.
  destruct (Z.leb_spec k i).
  - rewrite Z.shiftl_spec by lia.
    destruct (Z.ltb_spec i w).
    + rewrite Z.ones_spec_low by lia. reflexivity.
    + rewrite Z.ones_spec_high by lia. reflexivity.
  - rewrite Z.shiftl_spec_low by lia. reflexivity.
Qed.

Lemma land_mask : forall w k a, 0 <= k <= w -> 0 <= a < 2^w ->
  Z.land a (2^w - 2^k) = (a / 2^k) * 2^k.
Proof.
  intros w k a Hk Ha. apply Z.bits_inj'. intros i Hi.
  rewrite Z.land_spec, mask_testbit by lia.
  rewrite <- Z.shiftl_mul_pow2, <- Z.shiftr_div_pow2 by lia.
  destruct (Z.leb_spec k i).
  - rewrite Z.shiftl_spec by lia. rewrite Z.shiftr_spec by lia.
    replace (i - k + k) with i by lia.
    destruct (Z.ltb_spec i w); cbn; [apply andb_true_r|].
    rewrite andb_false_r. symmetry. apply testbit_high with (w := w); lia.
  - rewrite Z.shiftl_spec_low by lia. apply andb_false_r.
Qed.

Lemma land_ones' : forall k a, 0 <= k -> Z.land a (2^k - 1) = a mod 2^k.
Proof. intros. rewrite <- Z.land_ones by lia. rewrite Z.ones_equiv. f_equal. Qed.

Lemma prefix4_contains_spec : forall p a,
  is_u32 (p4_addr p) -> 0 <= p4_len p <= 32 -> is_u32 a ->
  prefix4_contains p a = true <-> in_prefix 32 (p4_addr p) (p4_len p) a.
Proof.
  intros p a Hp Hl Ha. unfold prefix4_contains, in_prefix.
  rewrite mask4_val by lia. unfold is_u32 in *.
  rewrite !land_mask by lia.
  assert (0 < 2^(32 - p4_len p)) by (apply Z.pow_pos_nonneg; lia).
  rewrite Z.eqb_eq. nia.
Qed.

Lemma in_prefix_refl : forall w b l, in_prefix w b l b.
Proof. reflexivity. Qed.

Lemma in_prefix_shorter : forall w b l l' a, 0 <= l' <= l -> l <= w ->
  in_prefix w b l a -> in_prefix w b l' a.
Proof.
  unfold in_prefix. intros w b l l' a Hl Hw H.
  replace (w - l') with ((w - l) + (l - l')) by lia.
  rewrite Z.pow_add_r by lia.
  assert (0 < 2^(w-l)) by (apply Z.pow_pos_nonneg; lia).
  assert (0 < 2^(l-l')) by (apply Z.pow_pos_nonneg; lia).
  rewrite <- !Z.div_div by lia. rewrite H. reflexivity.
Qed.

Lemma prefix4_intersects_spec : forall p q,
  is_u32 (p4_addr p) -> 0 <= p4_len p <= 32 -> is_u32 (p4_addr q) -> 0 <= p4_len q <= 32 ->
  prefix4_intersects p q = true <->
  exists a, is_u32 a /\ in_prefix 32 (p4_addr p) (p4_len p) a /\ in_prefix 32 (p4_addr q) (p4_len q) a.
Proof.
  intros p q Hp Hpl Hq Hql. unfold prefix4_intersects.
  rewrite orb_true_iff, !prefix4_contains_spec by auto. split.
  - intros [H|H]; [exists (p4_addr q)|exists (p4_addr p)]; repeat split; auto using in_prefix_refl; apply Hq || apply Hp.
  - intros (a & Ha & H1 & H2). destruct (Z_le_gt_dec (p4_len p) (p4_len q)).
    + left. apply in_prefix_shorter with (l' := p4_len p) in H2; try lia.
      unfold in_prefix in *. congruence.
    + right. apply in_prefix_shorter with (l' := p4_len q) in H1; try lia.
      unfold in_prefix in *. congruence.
Qed.

Lemma prefix4_validate_spec : forall p, wt_prefix4 p ->
  prefix4_validate p = OK <-> p4_len p <= 32 /\ p4_addr p mod 2^(32 - p4_len p) = 0.
Proof.
  intros p [Ha Hl]. unfold prefix4_validate, is_u8, is_u32 in *.
  destruct (p4_len p >? 32) eqn:E.
  - split; [discriminate|]. lia.
  - rewrite mask4_val by lia.
    set (k := 32 - p4_len p).
    assert (Hk : 2^k <= 2^32) by (apply Z.pow_le_mono_r; lia).
    assert (Hk0 : 0 < 2^k) by (apply Z.pow_pos_nonneg; lia).
    replace (u32 (Z.lnot (2^32 - 2^k))) with (2^k - 1).
    2:{ unfold u32. replace (Z.lnot (2^32 - 2^k)) with ((2^k - 1) + (-1) * 2^32) by (unfold Z.lnot; lia).
        rewrite Z.mod_add by lia. rewrite Z.mod_small; lia. }
    rewrite land_ones' by lia.
    destruct (Z.eqb_spec (p4_addr p mod 2^k) 0); cbn; split; [split; [lia|auto]|reflexivity|discriminate|tauto].
Qed.

Lemma prefix4_count_val : forall p, 0 <= p4_len p <= 32 -> prefix4_get_addr_count p = 2^(32 - p4_len p).
Proof.
  intros. unfold prefix4_get_addr_count, u64. rewrite Z.shiftl_1_l.
  apply Z.mod_small. split; [apply Z.pow_nonneg; lia|]. apply Z.pow_lt_mono_r; lia.
Qed.

Lemma prefix4_next_spec : forall p a, wt_prefix4 p -> prefix4_validate p = OK ->
  in_prefix 32 (p4_addr p) (p4_len p) a <-> p4_addr p <= a < prefix4_next p.
Proof.
  intros p a Hwt Hv. pose proof Hv as Hv'. apply prefix4_validate_spec in Hv'; auto. destruct Hv' as [Hl Hm].
  destruct Hwt as [Ha Hl0]. unfold is_u8, is_u32 in *.
  unfold prefix4_next. rewrite prefix4_count_val by lia.
  unfold u64. assert (2^(32 - p4_len p) <= 2^32) by (apply Z.pow_le_mono_r; lia).
  assert (0 < 2^(32 - p4_len p)) by (apply Z.pow_pos_nonneg; lia).
  rewrite Z.mod_small by lia.
  unfold in_prefix. set (m := 2^(32 - p4_len p)) in *. nia.
Qed.

Lemma prefix4_count_card : forall p, wt_prefix4 p -> prefix4_validate p = OK ->
  prefix4_next p - p4_addr p = prefix4_get_addr_count p.
Proof.
  intros p Hwt Hv. apply prefix4_validate_spec in Hv; auto. destruct Hwt as [Ha Hl]. unfold is_u8, is_u32 in *.
  unfold prefix4_next. rewrite prefix4_count_val by lia.
  assert (2^(32 - p4_len p) <= 2^32) by (apply Z.pow_le_mono_r; lia).
  assert (0 < 2^(32 - p4_len p)) by (apply Z.pow_pos_nonneg; lia).
  unfold u64. rewrite Z.mod_small by lia. lia.
Qed.

(** ** IPv6 bits *)
Lemma in_prefix_bits : forall w b l a, 0 <= l <= w -> 0 <= b < 2^w -> 0 <= a < 2^w ->
  in_prefix w b l a <-> (forall i, 0 <= i < l -> msb_bit w b i = msb_bit w a i).
Proof.
  intros w b l a Hl Hb Ha. unfold in_prefix, msb_bit. split.
  - intros H i Hi.
    assert (E : forall x, Z.testbit x (w - 1 - i) = Z.testbit (x / 2^(w-l)) (l - 1 - i)).
    { intros x. rewrite <- Z.shiftr_div_pow2 by lia. rewrite Z.shiftr_spec by lia. f_equal. lia. }
    rewrite !E. rewrite H. reflexivity.
  - intros H. rewrite <- !Z.shiftr_div_pow2 by lia. apply Z.bits_inj'. intros n Hn.
    rewrite !Z.shiftr_spec by lia.
    destruct (Z_lt_le_dec n l).
    + specialize (H (l - 1 - n)). replace (w - 1 - (l - 1 - n)) with (n + (w - l)) in H by lia.
      symmetry. apply H. lia.
    + rewrite (testbit_high a w), (testbit_high b w); auto; lia.
Qed.

Lemma prefix6_contains_spec : forall p a,
  is_u128 (p6_addr p) -> 0 <= p6_len p <= 128 -> is_u128 a ->
  prefix6_contains p a = true <-> in_prefix 128 (p6_addr p) (p6_len p) a.
Proof.
  intros p a Hp Hl Ha. unfold prefix6_contains. rewrite in_prefix_bits by auto.
  rewrite forallb_forall. split.
  - intros H i Hi. specialize (H (Z.to_nat i)).
    rewrite Z2Nat.id in H by lia. apply eqb_prop. apply H. apply in_seq. lia.
  - intros H i Hi. apply in_seq in Hi. rewrite H by lia. apply eqb_reflx.
Qed.

Lemma land_pow2_nonzero : forall a k, 0 <= k -> negb (Z.land a (2^k) =? 0) = Z.testbit a k.
Proof.
  intros a k Hk. destruct (Z.testbit a k) eqn:E.
  - apply negb_true_iff. apply Z.eqb_neq. intros H.
    assert (Z.testbit (Z.land a (2^k)) k = false) by (rewrite H; apply Z.bits_0).
    rewrite Z.land_spec, E, Z.pow2_bits_true in H0 by lia. discriminate.
  - apply negb_false_iff. apply Z.eqb_eq. apply Z.bits_inj'. intros n Hn.
    rewrite Z.land_spec, Z.bits_0. destruct (Z.eq_dec k n) as [->|Hne].
    + rewrite E. reflexivity.
    + rewrite Z.pow2_bits_false by lia. apply andb_false_r.
Qed.

Lemma u32_pow2 : forall k, 0 <= k < 32 -> u32 (Z.shiftl 1 k) = 2^k.
Proof.
  intros. rewrite Z.shiftl_1_l. unfold u32. apply Z.mod_small.
  split; [apply Z.pow_nonneg; lia|apply Z.pow_lt_mono_r; lia].
Qed.

Lemma addr4_get_bit_spec : forall a i, 0 <= i < 32 -> addr4_get_bit a i = msb_bit 32 a i.
Proof.
  intros. unfold addr4_get_bit, msb_bit. rewrite u32_pow2 by lia.
  rewrite land_pow2_nonzero by lia. f_equal.
Qed.

Lemma land31 : forall i, 0 <= i -> Z.land i 31 = i mod 32.
Proof. intros. change 31 with (Z.ones 5). rewrite Z.land_ones by lia. reflexivity. Qed.

Lemma shr5 : forall i, Z.shiftr i 5 = i / 32.
Proof. intros. rewrite Z.shiftr_div_pow2 by lia. reflexivity. Qed.

Lemma quadrant_testbit : forall a q k, 0 <= q <= 3 -> 0 <= k < 32 ->
  Z.testbit (quadrant a q) k = Z.testbit a (k + 32 * (3 - q)).
Proof.
  intros. unfold quadrant. rewrite Z.mod_pow2_bits_low by lia.
  rewrite <- Z.shiftr_div_pow2 by lia. rewrite Z.shiftr_spec by lia. reflexivity.
Qed.

Lemma addr6_get_bit_spec : forall a i, 0 <= i < 128 -> addr6_get_bit a i = msb_bit 128 a i.
Proof.
  intros. unfold addr6_get_bit, msb_bit. rewrite land31, shr5 by lia.
  rewrite u32_pow2 by lia. rewrite land_pow2_nonzero by lia.
  rewrite quadrant_testbit by lia. f_equal. lia.
Qed.

Lemma prefix6_validate_spec : forall p, wt_prefix6 p ->
  prefix6_validate p = OK <-> p6_len p <= 128 /\ p6_addr p mod 2^(128 - p6_len p) = 0.
Proof.
  intros p [Ha Hl]. unfold prefix6_validate, is_u8, is_u128 in *.
  destruct (p6_len p >? 128) eqn:E; [split; [discriminate|lia]|].
  rewrite Z.gtb_ltb, Z.ltb_ge in E.
  destruct (existsb _ _) eqn:Ex.
  - split; [discriminate|]. intros [_ Hm]. exfalso.
    apply existsb_exists in Ex. destruct Ex as (i & Hi & Hb). apply in_seq in Hi.
    rewrite addr6_get_bit_spec in Hb by lia. unfold msb_bit in Hb.
    rewrite <- (Z.mod_pow2_bits_low _ (128 - p6_len p)) in Hb by lia.
    rewrite Hm, Z.bits_0 in Hb. discriminate.
  - split; [|reflexivity]. intros _. split; [lia|].
    apply Z.bits_inj'. intros n Hn. rewrite Z.bits_0.
    destruct (Z_lt_le_dec n (128 - p6_len p)).
    + rewrite Z.mod_pow2_bits_low by lia.
      destruct (Z.testbit (p6_addr p) n) eqn:Hb; [|reflexivity]. exfalso.
      rewrite <- not_true_iff_false in Ex. apply Ex. apply existsb_exists.
      exists (Z.to_nat (127 - n)). split.
      * apply in_seq. lia.
      * rewrite addr6_get_bit_spec by lia. unfold msb_bit. rewrite <- Hb. f_equal. lia.
    + rewrite Z.mod_pow2_bits_high by lia. reflexivity.
Qed.

Lemma prefix6_interval : forall p a, wt_prefix6 p -> prefix6_validate p = OK ->
  in_prefix 128 (p6_addr p) (p6_len p) a <-> p6_addr p <= a < p6_addr p + 2^(128 - p6_len p).
Proof.
  intros p a Hwt Hv. pose proof Hv as Hv'. apply prefix6_validate_spec in Hv'; auto. destruct Hv' as [Hl Hm].
  destruct Hwt as [Ha Hl0]. unfold is_u8, is_u128 in *.
  assert (0 < 2^(128 - p6_len p)) by (apply Z.pow_pos_nonneg; lia).
  unfold in_prefix. set (m := 2^(128 - p6_len p)) in *. nia.
Qed.

(** ** RFC 6052 *)
Lemma pool6_len : forall p f, pool6_validate p f = OK -> rfc6052_len (p6_len p).
Proof.
  intros p f. unfold pool6_validate, validate_pool6_len, rfc6052_len.
  destruct (prefix6_validate p); [|discriminate].
  repeat match goal with |- context [Z.eqb ?x ?y] => destruct (Z.eqb_spec x y) end; cbn; try discriminate; intros _; tauto.
Qed.

Lemma pool6_prefix6 : forall p f, pool6_validate p f = OK -> prefix6_validate p = OK.
Proof.
  intros p f. unfold pool6_validate. destruct (prefix6_validate p); [reflexivity|discriminate].
Qed.

Lemma pool6_uoctet : forall p, pool6_validate p false = OK -> octet 16 (p6_addr p) 8 = 0.
Proof.
  intros p. unfold pool6_validate, validate_ubit. destruct (prefix6_validate p); [|discriminate].
  destruct (validate_pool6_len (p6_len p)); [|discriminate]. cbn [orb].
  destruct (Z.eqb_spec (octet 16 (p6_addr p) 8) 0); [auto|discriminate].
Qed.

Ltac six H := destruct H as [H|[H|[H|[H|[H|H]]]]].

(** The octet list assembled by 4to6, for reasoning. *)
Lemma octet16_be_of : forall l i, length l = 16%nat -> Forall is_u8 l -> (i < 16)%nat ->
  octet 16 (be_of l) i = nth i l 0.
Proof. intros l i Hl Hf Hi. rewrite <- Hl. apply octet_be_of; auto. lia. Qed.

Lemma octet4_be_of : forall l i, length l = 4%nat -> Forall is_u8 l -> (i < 4)%nat ->
  octet 4 (be_of l) i = nth i l 0.
Proof. intros l i Hl Hf Hi. rewrite <- Hl. apply octet_be_of; auto. lia. Qed.

Lemma zero_u8 : is_u8 0.
Proof. unfold is_u8. lia. Qed.

Ltac all_u8 := repeat (apply Forall_cons; [first [apply octet_is_u8 | apply zero_u8]|]); apply Forall_nil.

Lemma rfc6052_layout_ok : forall p a, rfc6052_len (p6_len p) ->
  exists r, rfc6052_4to6 p a = Some r /\ rfc6052_layout (p6_addr p) (p6_len p) a r.
Proof.
  intros p a H. unfold rfc6052_4to6, rfc6052_layout.
  six H; rewrite H; cbn [Z.eqb Pos.eqb];
    (eexists; split; [reflexivity|split];
     [ match goal with |- 0 <= be_of ?l < _ => change (2^128) with (256 ^ Z.of_nat (length l)); apply be_of_bound; all_u8 end
     | intros j Hj;
       assert (Hc : j = 0 \/ j = 1 \/ j = 2 \/ j = 3 \/ j = 4 \/ j = 5 \/ j = 6 \/ j = 7 \/ j = 8 \/ j = 9
         \/ j = 10 \/ j = 11 \/ j = 12 \/ j = 13 \/ j = 14 \/ j = 15) by lia;
       rewrite octet16_be_of; [| reflexivity | all_u8 | lia];
       repeat (destruct Hc as [Hc|Hc]; [subst j; reflexivity|]); subst j; reflexivity ]).
Qed.

Lemma rfc6052_6to4_none : forall p a, rfc6052_len (p6_len p) ->
  rfc6052_6to4 p a = None <-> prefix6_contains p a = false.
Proof.
  intros p a H. unfold rfc6052_6to4. destruct (prefix6_contains p a); cbn [negb]; [|tauto].
  split; [|discriminate]. six H; rewrite H; cbn [Z.eqb Pos.eqb]; discriminate.
Qed.

Lemma rfc6052_6to4_val : forall p a r, rfc6052_len (p6_len p) ->
  rfc6052_6to4 p a = Some r ->
  0 <= r < 2^32 /\
  forall i, 0 <= i < 4 -> octet 4 r (Z.to_nat i) = octet 16 a (Z.to_nat (rfc6052_pos (p6_len p) i)).
Proof.
  intros p a r H. unfold rfc6052_6to4. destruct (prefix6_contains p a); cbn [negb]; [|discriminate].
  six H; rewrite H; cbn [Z.eqb Pos.eqb]; intros [= <-];
    (split;
     [ match goal with |- 0 <= be_of ?l < _ => change (2^32) with (256 ^ Z.of_nat (length l)); apply be_of_bound; all_u8 end
     | intros i Hi; assert (Hc : i = 0 \/ i = 1 \/ i = 2 \/ i = 3) by lia;
       rewrite octet4_be_of; [| reflexivity | all_u8 | lia];
       repeat (destruct Hc as [Hc|Hc]; [subst i; reflexivity|]); subst i; reflexivity ]).
Qed.

(** An address with the same leading octets as the prefix is in the prefix. *)
Lemma octet_testbit : forall n a i k, (i < n)%nat -> 0 <= k < 8 ->
  Z.testbit (octet n a i) k = Z.testbit a (k + 8 * (Z.of_nat n - 1 - Z.of_nat i)).
Proof.
  intros. unfold octet. change 256 with (2^8). rewrite Z.mod_pow2_bits_low by lia.
  rewrite <- Z.shiftr_div_pow2 by lia. rewrite Z.shiftr_spec by lia. reflexivity.
Qed.

Lemma msb_bit_octet : forall n a i, 0 <= i < 8 * Z.of_nat n ->
  msb_bit (8 * Z.of_nat n) a i = Z.testbit (octet n a (Z.to_nat (i / 8))) (7 - i mod 8).
Proof.
  intros. rewrite octet_testbit by lia. unfold msb_bit. f_equal. lia.
Qed.

Lemma octets_in_prefix : forall b l a, 0 <= b < 2^128 -> 0 <= a < 2^128 ->
  0 <= l <= 128 -> l mod 8 = 0 ->
  (forall j, 0 <= j < l / 8 -> octet 16 b (Z.to_nat j) = octet 16 a (Z.to_nat j)) ->
  in_prefix 128 b l a.
Proof.
  intros b l a Hb Ha Hl Hm H. apply in_prefix_bits; auto. intros i Hi.
  change 128 with (8 * Z.of_nat 16). rewrite !msb_bit_octet by lia. rewrite H by lia. reflexivity.
Qed.

Lemma rfc6052_4to6_in_prefix : forall p a r, wt_prefix6 p -> rfc6052_len (p6_len p) ->
  rfc6052_4to6 p a = Some r -> is_u128 r /\ in_prefix 128 (p6_addr p) (p6_len p) r.
Proof.
  intros p a r [Hw _] Hl H. destruct (rfc6052_layout_ok p a Hl) as (r' & Hr & Hb & Hlay).
  rewrite Hr in H. injection H as <-. split; [exact Hb|].
  apply octets_in_prefix; auto; try (unfold rfc6052_len in Hl; lia).
  intros j Hj. rewrite Hlay by (unfold rfc6052_len in Hl; lia).
  destruct (Z.ltb_spec j (p6_len p / 8)); [reflexivity|lia].
Qed.

Lemma rfc6052_roundtrip : forall p a, wt_prefix6 p -> rfc6052_len (p6_len p) -> is_u32 a ->
  exists r, rfc6052_4to6 p a = Some r /\ is_u128 r /\ in_prefix 128 (p6_addr p) (p6_len p) r
            /\ rfc6052_6to4 p r = Some a.
Proof.
  intros p a Hw Hl Ha. destruct (rfc6052_layout_ok p a Hl) as (r & Hr & Hb & Hlay).
  destruct (rfc6052_4to6_in_prefix p a r Hw Hl Hr) as [Hu Hin].
  exists r. repeat split; auto; try apply Hu.
  destruct (rfc6052_6to4 p r) as [a'|] eqn:E.
  - f_equal. destruct (rfc6052_6to4_val p r a' Hl E) as [Ha' Hoct].
    apply octets_inj with (n := 4%nat); [exact Ha'|exact Ha|].
    unfold octets. apply map_ext_in. intros i Hi. apply in_seq in Hi.
    specialize (Hoct (Z.of_nat i)). rewrite Nat2Z.id in Hoct. rewrite Hoct by lia.
    rewrite Hlay.
    2:{ assert (Hc : i = 0%nat \/ i = 1%nat \/ i = 2%nat \/ i = 3%nat) by lia.
        six Hl; rewrite Hl; repeat (destruct Hc as [Hc|Hc]; [subst i; vm_compute; split; congruence|]); subst i; vm_compute; split; congruence. }
    assert (Hc : i = 0%nat \/ i = 1%nat \/ i = 2%nat \/ i = 3%nat) by lia.
    six Hl; rewrite Hl; repeat (destruct Hc as [Hc|Hc]; [subst i; reflexivity|]); subst i; reflexivity.
  - exfalso. apply rfc6052_6to4_none in E; auto.
    destruct Hw as [Hw _].
    apply prefix6_contains_spec in Hin; auto; [congruence|unfold rfc6052_len in Hl; lia].
Qed.

Lemma rfc6052_uoctet : forall p a r, pool6_validate p false = OK ->
  rfc6052_4to6 p a = Some r -> octet 16 r 8 = 0.
Proof.
  intros p a r Hv Hr. pose proof (pool6_len _ _ Hv) as Hl.
  destruct (rfc6052_layout_ok p a Hl) as (r' & Hr' & Hb & Hlay).
  assert (r' = r) by congruence. subst r'.
  specialize (Hlay 8 ltac:(lia)). change (Z.to_nat 8) with 8%nat in Hlay. rewrite Hlay.
  pose proof (pool6_uoctet p Hv) as Hu.
  six Hl; rewrite Hl; cbn; auto.
Qed.

(** ** RFC 6791 pools *)
Lemma rfc6791v4_in_prefix : forall pool n, wt_prefix4 pool -> prefix4_validate pool = OK -> is_u32 n ->
  is_u32 (rfc6791v4_get_pool_address pool n) /\
  in_prefix 32 (p4_addr pool) (p4_len pool) (rfc6791v4_get_pool_address pool n).
Proof.
  intros pool n Hwt Hv Hn. pose proof Hv as Hv'. apply prefix4_validate_spec in Hv'; auto.
  destruct Hv' as [Hl Hm]. destruct Hwt as [Ha Hl0]. unfold is_u8, is_u32 in *.
  unfold rfc6791v4_get_pool_address. rewrite mask4_val by lia.
  set (k := 32 - p4_len pool) in *.
  assert (Hk : 2^k <= 2^32) by (apply Z.pow_le_mono_r; lia).
  assert (Hk0 : 0 < 2^k) by (apply Z.pow_pos_nonneg; lia).
  replace (u32 (Z.lnot (2^32 - 2^k))) with (2^k - 1).
  2:{ unfold u32. replace (Z.lnot (2^32 - 2^k)) with ((2^k - 1) + (-1) * 2^32) by (unfold Z.lnot; lia).
      rewrite Z.mod_add by lia. rewrite Z.mod_small; lia. }
  rewrite land_ones' by lia.
  assert (Hs : Z.lor (p4_addr pool) (n mod 2^k) = p4_addr pool + n mod 2^k).
  { rewrite <- Z.lxor_lor, <- Z.add_nocarry_lxor; auto.
    all: apply Z.bits_inj'; intros i Hi; rewrite Z.land_spec, Z.bits_0;
      destruct (Z_lt_le_dec i k);
      [ rewrite <- (Z.mod_pow2_bits_low (p4_addr pool) k i) by lia; rewrite Hm, Z.bits_0; reflexivity
      | rewrite (Z.mod_pow2_bits_high n k i) by lia; apply andb_false_r ]. }
  rewrite Hs. unfold in_prefix. fold k.
  assert (p4_addr pool + 2^k <= 2^32).
  { assert (Hd: (2^k | 2^32)). { exists (2^(32-k)). rewrite <- Z.pow_add_r by lia. f_equal. lia. }
    destruct Hd as [q Hq]. pose proof (Z.div_mod (p4_addr pool) (2^k) ltac:(lia)) as Hdm. rewrite Hm in Hdm.
    set (d := p4_addr pool / 2^k) in *. clearbody d. rewrite Hq in *. set (m := 2^k) in *. clearbody m. clear - Ha Hdm Hk0.
    assert (m * d < m * q) by lia. apply Z.mul_lt_mono_pos_l in H; [|lia]. nia. }
  assert (0 <= n mod 2^k < 2^k) by (apply Z.mod_pos_bound; lia).
  split; [lia|]. set (m := 2^k) in *. nia.
Qed.

Lemma lor_u8 : forall a b, is_u8 a -> is_u8 b -> is_u8 (Z.lor a b).
Proof.
  unfold is_u8. intros a b Ha Hb. split; [apply Z.lor_nonneg; lia|].
  destruct (Z.eq_dec (Z.lor a b) 0) as [->|Hn]; [lia|].
  assert (0 <= Z.lor a b) by (apply Z.lor_nonneg; lia).
  apply Z.log2_lt_pow2; [lia|]. rewrite Z.log2_lor by lia.
  destruct (Z.eq_dec a 0), (Z.eq_dec b 0); subst; cbn in *; try lia;
  repeat match goal with |- context [Z.log2 ?x] => assert (Z.log2 x < 8) by (apply Z.log2_lt_pow2; lia); generalize dependent (Z.log2 x); intros end; lia.
Qed.

Lemma rfc6791v6_in_prefix : forall p rnd rb, wt_prefix6 p -> prefix6_validate p = OK ->
  (forall i, is_u8 (rnd i)) -> is_u8 rb ->
  is_u128 (rfc6791v6_get_pool_address p rnd rb) /\
  in_prefix 128 (p6_addr p) (p6_len p) (rfc6791v6_get_pool_address p rnd rb).
Proof.
  intros p rnd rb Hwt Hv Hrnd Hrb. pose proof Hv as Hv'. apply prefix6_validate_spec in Hv'; auto.
  destruct Hv' as [Hl Hm]. destruct Hwt as [Ha Hl0]. unfold is_u8 in Hl0.
  unfold rfc6791v6_get_pool_address.
  rewrite Z.shiftr_div_pow2 by lia. change (2^3) with 8.
  change 7 with (Z.ones 3) at 1. rewrite Z.land_ones by lia. change (2^3) with 8.
  change (Z.land (p6_len p) 7) with (Z.land (p6_len p) (Z.ones 3)). rewrite Z.land_ones by lia. change (2^3) with 8.
  set (seg := Z.to_nat (p6_len p / 8)).
  assert (Hand : forall m, 0 <= m <= 8 -> is_u8 (Z.land rb (Z.shiftl 1 m - 1))).
  { intros m Hm'. rewrite Z.shiftl_1_l. rewrite land_ones' by lia. unfold is_u8 in *.
    assert (2^m <= 2^8) by (apply Z.pow_le_mono_r; lia).
    assert (0 < 2^m) by (apply Z.pow_pos_nonneg; lia).
    pose proof (Z.mod_pos_bound rb (2^m)). lia. }
  assert (Hlist : forall f, (forall i, is_u8 (f i)) ->
     is_u128 (be_of (map f (seq 0 16))) /\ forall i, (i < 16)%nat -> octet 16 (be_of (map f (seq 0 16))) i = f i).
  { intros f Hf. assert (HF : Forall is_u8 (map f (seq 0 16))).
    { apply Forall_forall. intros x Hx. apply in_map_iff in Hx. destruct Hx as (i & <- & _). apply Hf. }
    split.
    - pose proof (be_of_bound _ HF). rewrite map_length, seq_length in H. exact H.
    - intros i Hi. rewrite octet16_be_of; auto; try (rewrite map_length, seq_length; reflexivity).
      rewrite nth_indep with (d' := f 0%nat) by (rewrite map_length, seq_length; lia).
      rewrite map_nth. rewrite seq_nth by lia. reflexivity. }
  destruct (Z.eqb_spec (p6_len p mod 8) 0) as [Hz|Hnz].
  - match goal with |- is_u128 (be_of (map ?f _)) /\ _ => specialize (Hlist f) end.
    destruct Hlist as [Hu Hoct].
    { intros i. cbv beta. destruct (i <? seg)%nat; [apply octet_is_u8|apply Hrnd]. }
    split; [exact Hu|].
    apply octets_in_prefix; auto; try lia.
    intros j Hj. rewrite Hoct by lia. replace (Z.to_nat j <? seg)%nat with true by (unfold seg; lia). reflexivity.
  - match goal with |- is_u128 (be_of (map ?f _)) /\ _ => specialize (Hlist f) end.
    destruct Hlist as [Hu Hoct].
    { intros i. cbv beta. destruct (i <? seg)%nat; [apply octet_is_u8|].
      destruct (i =? seg)%nat; [|apply Hrnd]. apply lor_u8; [apply octet_is_u8|]. apply Hand. lia. }
    split; [exact Hu|].
    apply in_prefix_bits; auto; try lia. intros i Hi.
    change 128 with (8 * Z.of_nat 16). rewrite !msb_bit_octet by lia.
    rewrite Hoct by lia.
    destruct (Nat.ltb_spec (Z.to_nat (i/8)) seg); [reflexivity|].
    replace (Z.to_nat (i / 8) =? seg)%nat with true by (unfold seg in *; lia).
    rewrite Z.lor_spec.
    replace (Z.testbit (Z.land rb _) (7 - i mod 8)) with false; [rewrite orb_false_r; reflexivity|].
    symmetry. rewrite Z.shiftl_1_l, land_ones' by lia.
    apply Z.mod_pow2_bits_high. unfold seg in *. lia.
Qed.
