(** Arithmetic form of the EAM suffix copies. *)
Require Import Verif.Base Verif.Addr_Model Verif.Addr_Spec Verif.Addr_Proofs.
Require Import Verif.Rtrie_Model Verif.Eam_Model Verif.Eam_Spec Verif.Eam_Proofs Verif.Eam_Bits.

Local Ltac Zify.zify_post_hook ::= idtac.

Lemma add_low_bits : forall base x m n, 0 <= m -> base mod 2^m = 0 -> 0 <= x < 2^m -> 0 <= n ->
  Z.testbit (base + x) n = if n <? m then Z.testbit x n else Z.testbit base n.
Proof.
  intros base x m n Hm Hb Hx Hn.
  assert (Hp : 0 < 2^m) by (apply Z.pow_pos_nonneg; lia).
  assert (Eb : base = (base / 2^m) * 2^m) by (pose proof (Z.div_mod base (2^m) ltac:(lia)); rewrite Hb in *; lia).
  destruct (Z.ltb_spec n m).
  - rewrite <- (Z.mod_pow2_bits_low (base + x) m) by lia. rewrite Eb, Z.add_comm, Z.mod_add by lia.
    rewrite Z.mod_small by lia. reflexivity.
  - replace n with (n - m + m) by lia. rewrite <- !Z.shiftr_spec by lia. rewrite !Z.shiftr_div_pow2 by lia.
    f_equal. rewrite Eb at 1. rewrite Z.add_comm, Z.div_add by lia. rewrite Z.div_small by lia. reflexivity.
Qed.

Lemma shift_bits : forall s k n, 0 <= k -> 0 <= n -> Z.testbit (s * 2^k) n = if n <? k then false else Z.testbit s (n - k).
Proof.
  intros s k n Hk Hn. rewrite <- Z.shiftl_mul_pow2 by lia. destruct (Z.ltb_spec n k).
  - rewrite Z.shiftl_spec_low by lia. reflexivity.
  - rewrite Z.shiftl_spec by lia. reflexivity.
Qed.

Lemma xlat46_val : forall e a4, good e ->
  eam_xlat_4to6 e a4 = p6_addr (e_p6 e) +
    (a4 mod 2^(32 - p4_len (e_p4 e))) * 2^(128 - p6_len (e_p6 e) - (32 - p4_len (e_p4 e))).
Proof.
  intros e a4 He. destruct (good_facts e He) as (A1 & A2 & A3 & A4).
  pose proof He as (_ & L1 & L2 & L3 & L4 & L5).
  destruct (xlat46_bits e a4 A1 A4 ltac:(lia) L5) as [H1 H2].
  set (l4 := p4_len (e_p4 e)) in *. set (l6 := p6_len (e_p6 e)) in *. set (b := p6_addr (e_p6 e)) in *.
  set (s := a4 mod 2^(32 - l4)). set (k := 128 - l6 - (32 - l4)).
  assert (Hs : 0 <= s < 2^(32 - l4)) by (apply Z.mod_pos_bound; apply Z.pow_pos_nonneg; lia).
  assert (Hk : 0 < 2^k) by (apply Z.pow_pos_nonneg; lia).
  assert (Hx : 0 <= s * 2^k < 2^(128 - l6)).
  { replace (2^(128 - l6)) with (2^(32 - l4) * 2^k) by (rewrite <- Z.pow_add_r by lia; f_equal; unfold k; lia). nia. }
  assert (Hb : b + s * 2^k < 2^128).
  { unfold is_u128 in A1. pose proof (Z.div_mod b (2^(128 - l6)) ltac:(lia)) as D. rewrite L2 in D.
    assert (b / 2^(128 - l6) < 2^l6).
    { apply Z.div_lt_upper_bound; [lia|]. rewrite <- Z.pow_add_r by lia. replace (128 - l6 + l6) with 128 by lia. lia. }
    replace (2^128) with (2^(128 - l6) * 2^l6) by (rewrite <- Z.pow_add_r by lia; f_equal; lia). nia. }
  apply (msb_bits_inj 128); [exact H1|unfold is_u128 in A1; lia|].
  intros i Hi. rewrite H2 by lia. unfold msb_bit. rewrite (add_low_bits b (s * 2^k) (128 - l6)) by lia.
  rewrite shift_bits by lia.
  destruct (Z.leb_spec l6 i), (Z.ltb_spec (128 - 1 - i) (128 - l6)); try lia; cbn [andb].
  - destruct (Z.ltb_spec i (l6 + (32 - l4))), (Z.ltb_spec (128 - 1 - i) k); try (unfold k in *; lia).
    + unfold s. rewrite Z.mod_pow2_bits_low by (unfold k; lia). f_equal. unfold k. lia.
    + (* zero padding *)
      fold b. rewrite <- (Z.mod_pow2_bits_low b (128 - l6)) by lia. rewrite L2. apply Z.bits_0.
  - reflexivity.
Qed.

Lemma xlat64_val : forall e a6, good e -> is_u128 a6 ->
  eam_xlat_6to4 e a6 = p4_addr (e_p4 e) +
    (a6 / 2^(128 - p6_len (e_p6 e) - (32 - p4_len (e_p4 e)))) mod 2^(32 - p4_len (e_p4 e)).
Proof.
  intros e a6 He Ha. destruct (good_facts e He) as (A1 & A2 & A3 & A4).
  pose proof He as (_ & L1 & L2 & L3 & L4 & L5).
  destruct (xlat64_bits e a6 A3 A4 ltac:(lia) L5) as [H1 H2].
  set (l4 := p4_len (e_p4 e)) in *. set (l6 := p6_len (e_p6 e)) in *. set (b := p4_addr (e_p4 e)) in *.
  set (k := 128 - l6 - (32 - l4)). set (s := (a6 / 2^k) mod 2^(32 - l4)).
  assert (Hs : 0 <= s < 2^(32 - l4)) by (apply Z.mod_pos_bound; apply Z.pow_pos_nonneg; lia).
  assert (Hb : b + s < 2^32).
  { unfold is_u32 in A3. pose proof (Z.div_mod b (2^(32 - l4)) ltac:(lia)) as D. rewrite L4 in D.
    assert (b / 2^(32 - l4) < 2^l4).
    { apply Z.div_lt_upper_bound; [lia|]. rewrite <- Z.pow_add_r by lia. replace (32 - l4 + l4) with 32 by lia. lia. }
    replace (2^32) with (2^(32 - l4) * 2^l4) by (rewrite <- Z.pow_add_r by lia; f_equal; lia). nia. }
  apply (msb_bits_inj 32); [exact H1|unfold is_u32 in A3; lia|].
  intros i Hi. rewrite H2 by lia. unfold msb_bit. rewrite (add_low_bits b s (32 - l4)) by lia.
  destruct (Z.ltb_spec i l4), (Z.ltb_spec (32 - 1 - i) (32 - l4)); try lia; [reflexivity|].
  unfold s. rewrite Z.mod_pow2_bits_low by lia. rewrite <- Z.shiftr_div_pow2 by (unfold k; lia).
  rewrite Z.shiftr_spec by lia. f_equal. unfold k. lia.
Qed.

Lemma in4_split : forall e a, good e -> is_u32 a -> in4 (e_p4 e) a ->
  a = p4_addr (e_p4 e) + a mod 2^(32 - p4_len (e_p4 e)).
Proof.
  intros e a He Ha Hin. destruct (good_facts e He) as (A1 & A2 & A3 & A4). pose proof He as (_ & L1 & L2 & L3 & L4 & L5).
  unfold in4, in_prefix in Hin. set (m := 2^(32 - p4_len (e_p4 e))) in *.
  assert (0 < m) by (apply Z.pow_pos_nonneg; lia).
  rewrite (Z.div_mod a m) at 1 by lia. rewrite Hin. rewrite (Z.div_mod (p4_addr (e_p4 e)) m) at 2 by lia.
  rewrite L4. ring.
Qed.

Lemma in_prefix_add : forall w base len x, 0 <= len <= w -> base mod 2^(w - len) = 0 -> 0 <= x < 2^(w - len) ->
  in_prefix w base len (base + x).
Proof.
  intros w base len x Hl Hb Hx. unfold in_prefix. set (m := 2^(w - len)) in *.
  rewrite (Z.div_mod base m) at 1 by lia. rewrite Hb, Z.add_0_r, (Z.mul_comm m).
  rewrite Z.div_add_l by lia. rewrite (Z.div_small x m) by lia. lia.
Qed.

Lemma xlat46_in : forall e a4, good e -> in6 (e_p6 e) (eam_xlat_4to6 e a4).
Proof.
  intros e a4 He. rewrite xlat46_val by auto. destruct (good_facts e He) as (A1 & A2 & A3 & A4).
  pose proof He as (_ & L1 & L2 & L3 & L4 & L5). apply in_prefix_add; [lia|exact L2|].
  set (l4 := p4_len (e_p4 e)) in *. set (l6 := p6_len (e_p6 e)) in *.
  assert (Hs : 0 <= a4 mod 2^(32 - l4) < 2^(32 - l4)) by (apply Z.mod_pos_bound; apply Z.pow_pos_nonneg; lia).
  set (k := 128 - l6 - (32 - l4)). assert (Hk : 0 < 2^k) by (apply Z.pow_pos_nonneg; unfold k; lia).
  replace (2^(128 - l6)) with (2^(32 - l4) * 2^k) by (rewrite <- Z.pow_add_r by (unfold k; lia); f_equal; unfold k; lia). nia.
Qed.

Lemma xlat64_in : forall e a6, good e -> is_u128 a6 -> in4 (e_p4 e) (eam_xlat_6to4 e a6).
Proof.
  intros e a6 He Ha. rewrite xlat64_val by auto. destruct (good_facts e He) as (A1 & A2 & A3 & A4).
  pose proof He as (_ & L1 & L2 & L3 & L4 & L5). apply in_prefix_add; [lia|exact L4|].
  apply Z.mod_pos_bound; apply Z.pow_pos_nonneg; lia.
Qed.

Lemma xlat_round : forall e a4, good e -> is_u32 a4 -> in4 (e_p4 e) a4 ->
  eam_xlat_6to4 e (eam_xlat_4to6 e a4) = a4.
Proof.
  intros e a4 He Ha Hin. destruct (good_facts e He) as (A1 & A2 & A3 & A4).
  pose proof He as (_ & L1 & L2 & L3 & L4 & L5).
  assert (H128 : is_u128 (eam_xlat_4to6 e a4)) by (apply xlat46_bits; auto; lia).
  rewrite xlat64_val by auto. rewrite xlat46_val by auto.
  rewrite (in4_split e a4 He Ha Hin) at 2. f_equal.
  set (l4 := p4_len (e_p4 e)) in *. set (l6 := p6_len (e_p6 e)) in *.
  set (k := 128 - l6 - (32 - l4)). assert (Hk : 0 < 2^k) by (apply Z.pow_pos_nonneg; unfold k; lia).
  rewrite Z.div_add by lia.
  assert (Hm : (p6_addr (e_p6 e) / 2^k) mod 2^(32 - l4) = 0).
  { pose proof (Z.div_mod (p6_addr (e_p6 e)) (2^(128 - l6)) ltac:(lia)) as D. rewrite L2, Z.add_0_r in D. rewrite D.
    replace (2^(128 - l6)) with (2^(32 - l4) * 2^k) by (rewrite <- Z.pow_add_r by (unfold k; lia); f_equal; unfold k; lia).
    set (y := p6_addr (e_p6 e) / (2^(32 - l4) * 2^k)).
    replace (2^(32 - l4) * 2^k * y) with (2^(32 - l4) * y * 2^k) by ring.
    rewrite Z.div_mul by lia. rewrite Z.mul_comm. apply Z.mod_mul. apply Z.pow_nonzero; lia. }
  assert (0 < 2^(32 - l4)) by (apply Z.pow_pos_nonneg; lia).
  rewrite Z.add_mod by lia. rewrite Hm. cbn [Z.add]. rewrite Z.mod_mod by lia. apply Z.mod_mod. lia.
Qed.
