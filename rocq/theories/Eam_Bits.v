(** Suffix copies of eam.c, bit by bit. *)
Require Import Verif.Base Verif.Addr_Model Verif.Addr_Spec Verif.Addr_Proofs.
Require Import Verif.Rtrie_Model Verif.Eam_Model Verif.Eam_Spec.

Lemma land_not_pow2 : forall a k n, 0 <= k < 32 -> 0 <= n ->
  Z.testbit (Z.land a (u32 (Z.lnot (2^k)))) n = Z.testbit a n && negb (n =? k) && (n <? 32).
Proof.
  intros a k n Hk Hn. rewrite Z.land_spec. unfold u32.
  destruct (Z.ltb_spec n 32).
  - rewrite Z.mod_pow2_bits_low by lia. rewrite Z.lnot_spec by lia. rewrite Z.pow2_bits_eqb by lia.
    rewrite (Z.eqb_sym k n). rewrite andb_true_r. reflexivity.
  - rewrite Z.mod_pow2_bits_high by lia. rewrite !andb_false_r. reflexivity.
Qed.

Lemma bound_by_bits : forall a w, 0 <= w -> 0 <= a -> (forall n, w <= n -> Z.testbit a n = false) -> a < 2^w.
Proof.
  intros a w Hw Ha H. destruct (Z.eq_dec a 0) as [->|Hn]; [apply Z.pow_pos_nonneg; lia|].
  apply Z.log2_lt_pow2; [lia|]. destruct (Z_lt_le_dec (Z.log2 a) w); [auto|].
  specialize (H (Z.log2 a) l).
  rewrite Z.bit_log2 in H by lia. discriminate.
Qed.

Lemma setbit32 : forall a k (v : bool), 0 <= a < 2^32 -> 0 <= k < 32 ->
  let r := if v then Z.lor a (2^k) else Z.land a (u32 (Z.lnot (2^k))) in
  0 <= r < 2^32 /\ forall n, 0 <= n < 32 -> Z.testbit r n = if n =? k then v else Z.testbit a n.
Proof.
  intros a k v Ha Hk r.
  assert (Hp : 0 < 2^k) by (apply Z.pow_pos_nonneg; lia).
  assert (H0 : 0 <= r).
  { unfold r. destruct v; [apply Z.lor_nonneg; lia|apply Z.land_nonneg; lia]. }
  split.
  - split; [exact H0|]. apply bound_by_bits; [lia|exact H0|]. intros n Hn. unfold r. destruct v.
    + rewrite Z.lor_spec, (testbit_high a 32), Z.pow2_bits_eqb by lia. cbn [orb]. apply Z.eqb_neq. lia.
    + rewrite land_not_pow2 by lia. rewrite (testbit_high a 32) by lia. reflexivity.
  - intros n Hn. unfold r. destruct v.
    + rewrite Z.lor_spec, Z.pow2_bits_eqb by lia. rewrite (Z.eqb_sym k n). destruct (n =? k); [apply orb_true_r|apply orb_false_r].
    + rewrite land_not_pow2 by lia. destruct (Z.eqb_spec n k); destruct (Z.ltb_spec n 32); try lia;
        destruct (Z.testbit a n); reflexivity.
Qed.

Lemma addr4_set_bit_spec : forall a pos v, is_u32 a -> 0 <= pos < 32 ->
  is_u32 (addr4_set_bit a pos v) /\
  forall i, 0 <= i < 32 -> msb_bit 32 (addr4_set_bit a pos v) i = if i =? pos then v else msb_bit 32 a i.
Proof.
  intros a pos v Ha Hp. unfold addr4_set_bit. rewrite u32_pow2 by lia.
  destruct (setbit32 a (31 - pos) v Ha ltac:(lia)) as [H1 H2]. split; [exact H1|].
  intros i Hi. unfold msb_bit. rewrite H2 by lia.
  destruct (Z.eqb_spec (32 - 1 - i) (31 - pos)), (Z.eqb_spec i pos); try lia; reflexivity.
Qed.

Lemma three_parts : forall hi x lo m n, 0 <= m -> 0 <= x < 2^32 -> 0 <= lo < 2^m -> 0 <= n ->
  Z.testbit (hi * 2^(m + 32) + x * 2^m + lo) n =
    if n <? m then Z.testbit lo n else if n <? m + 32 then Z.testbit x (n - m) else Z.testbit hi (n - m - 32).
Proof.
  intros hi x lo m n Hm Hx Hlo Hn. rewrite Z.pow_add_r by lia.
  set (y := hi * (2^m * 2^32) + x * 2^m + lo).
  assert (Hy : y = lo + (hi * 2^32 + x) * 2^m) by (unfold y; ring).
  destruct (Z.ltb_spec n m).
  - rewrite <- (Z.mod_pow2_bits_low y m) by lia. rewrite Hy, Z.mod_add by lia. rewrite Z.mod_small by lia. reflexivity.
  - replace n with (n - m + m) at 1 by lia. rewrite <- Z.shiftr_spec by lia. rewrite Z.shiftr_div_pow2 by lia.
    rewrite Hy, Z.div_add by lia. rewrite Z.div_small by lia. cbn [Z.add]. 
    destruct (Z.ltb_spec n (m + 32)).
    + rewrite <- (Z.mod_pow2_bits_low _ 32) by lia. rewrite Z.add_comm, Z.mod_add by lia. rewrite Z.mod_small by lia. reflexivity.
    + replace (n - m) with (n - m - 32 + 32) at 1 by lia. rewrite <- Z.shiftr_spec by lia. rewrite Z.shiftr_div_pow2 by lia.
      rewrite Z.add_comm, Z.div_add by lia. rewrite Z.div_small by lia. reflexivity.
Qed.

Lemma quadrant_split : forall a q, 0 <= a < 2^128 -> 0 <= q <= 3 ->
  exists hi lo, a = hi * 2^(32 * (3 - q) + 32) + quadrant a q * 2^(32 * (3 - q)) + lo /\
    0 <= lo < 2^(32 * (3 - q)) /\ 0 <= hi < 2^(32 * q) /\ 0 <= quadrant a q < 2^32.
Proof.
  intros a q Ha Hq. unfold quadrant. set (m := 32 * (3 - q)).
  assert (Hm : 0 < 2^m) by (apply Z.pow_pos_nonneg; lia).
  exists (a / 2^m / 2^32), (a mod 2^m). split.
  - rewrite Z.pow_add_r by lia. pose proof (Z.div_mod a (2^m) ltac:(lia)). pose proof (Z.div_mod (a / 2^m) (2^32) ltac:(lia)).
    set (x := a / 2^m) in *. set (y := x / 2^32) in *. set (z := x mod 2^32) in *. clearbody x y z.
    rewrite H at 1. rewrite H0 at 1. ring.
  - split; [apply Z.mod_pos_bound; lia|]. split; [|apply Z.mod_pos_bound; lia].
    split; [apply Z.div_pos; [apply Z.div_pos; lia|lia]|].
    rewrite Z.div_div by lia. apply Z.div_lt_upper_bound; [nia|].
    replace (2^128) with (2^m * 2^32 * 2^(32 * q)) in Ha; [lia|].
    rewrite <- !Z.pow_add_r by lia. f_equal. unfold m. lia.
Qed.

Lemma addr6_set_bit_spec : forall a pos v, is_u128 a -> 0 <= pos < 128 ->
  is_u128 (addr6_set_bit a pos v) /\
  forall i, 0 <= i < 128 -> msb_bit 128 (addr6_set_bit a pos v) i = if i =? pos then v else msb_bit 128 a i.
Proof.
  intros a pos v Ha Hp. unfold addr6_set_bit. rewrite land31, shr5 by lia. rewrite u32_pow2 by lia.
  set (q := pos / 32). assert (Hq : 0 <= q <= 3) by (unfold q; lia).
  destruct (quadrant_split a q Ha Hq) as (hi & lo & Ea & Hlo & Hhi & Hqd).
  set (m := 32 * (3 - q)) in *. set (quad := quadrant a q) in *.
  set (quad' := if v then _ else _).
  destruct (setbit32 quad (31 - pos mod 32) v Hqd ltac:(lia)) as [H1 H2]. fold quad' in H1, H2.
  assert (Er : a - quad * 2^m + quad' * 2^m = hi * 2^(m + 32) + quad' * 2^m + lo) by (rewrite Ea; ring).
  rewrite Er. assert (Hm : 0 < 2^m) by (apply Z.pow_pos_nonneg; lia).
  split.
  - assert (Hpow : 2^128 = 2^(32*q) * (2^32 * 2^m)).
    { rewrite <- !Z.pow_add_r by lia. f_equal. unfold m. lia. }
    unfold is_u128. rewrite Hpow. rewrite Z.pow_add_r by lia. clearbody quad' quad m. clear - H1 Hlo Hhi Hm. nia.
  - intros i Hi. unfold msb_bit. rewrite Ea at 1. rewrite !three_parts by lia.
    destruct (Z.ltb_spec (128 - 1 - i) m).
    + destruct (Z.eqb_spec i pos); [unfold m, q in *; lia|reflexivity].
    + destruct (Z.ltb_spec (128 - 1 - i) (m + 32)).
      * rewrite H2 by lia. destruct (Z.eqb_spec (128 - 1 - i - m) (31 - pos mod 32)), (Z.eqb_spec i pos); unfold m, q in *; try lia; reflexivity.
      * destruct (Z.eqb_spec i pos); [unfold m, q in *; lia|reflexivity].
Qed.

(** The 6 to 4 suffix copy. *)
Lemma xlat64_bits : forall e a6, is_u32 (p4_addr (e_p4 e)) -> 0 <= p4_len (e_p4 e) <= 32 ->
  0 <= p6_len (e_p6 e) -> 32 - p4_len (e_p4 e) <= 128 - p6_len (e_p6 e) ->
  is_u32 (eam_xlat_6to4 e a6) /\
  forall i, 0 <= i < 32 -> msb_bit 32 (eam_xlat_6to4 e a6) i =
    if i <? p4_len (e_p4 e) then msb_bit 32 (p4_addr (e_p4 e)) i
    else msb_bit 128 a6 (p6_len (e_p6 e) + (i - p4_len (e_p4 e))).
Proof.
  intros e a6 Ha Hl4 Hl6 Hfit. unfold eam_xlat_6to4.
  set (l4 := p4_len (e_p4 e)) in *. set (l6 := p6_len (e_p6 e)) in *.
  assert (H : forall n, (n <= Z.to_nat (32 - l4))%nat ->
    let r := fold_left (fun a4 i => addr4_set_bit a4 (l4 + Z.of_nat i) (addr6_get_bit a6 (l6 + Z.of_nat i))) (seq 0 n) (p4_addr (e_p4 e)) in
    is_u32 r /\ forall i, 0 <= i < 32 -> msb_bit 32 r i =
      if (l4 <=? i) && (i <? l4 + Z.of_nat n) then msb_bit 128 a6 (l6 + (i - l4)) else msb_bit 32 (p4_addr (e_p4 e)) i).
  { induction n as [|n IH]; intros Hn; cbv zeta.
    - cbn [seq fold_left]. split; [exact Ha|]. intros i Hi.
      destruct (Z.leb_spec l4 i), (Z.ltb_spec i (l4 + Z.of_nat 0)); cbn [andb]; try lia; reflexivity.
    - rewrite seq_S, fold_left_app. cbn [fold_left Nat.add].
      destruct IH as [I1 I2]; [lia|]. cbv zeta in I1, I2.
      set (r := fold_left _ (seq 0 n) _) in *. clearbody r.
      destruct (addr4_set_bit_spec r (l4 + Z.of_nat n) (addr6_get_bit a6 (l6 + Z.of_nat n)) I1 ltac:(lia)) as [S1 S2].
      split; [exact S1|]. intros i Hi. rewrite S2 by lia. rewrite I2 by lia. rewrite addr6_get_bit_spec by lia.
      destruct (Z.eqb_spec i (l4 + Z.of_nat n)).
      + subst i. destruct (Z.leb_spec l4 (l4 + Z.of_nat n)), (Z.ltb_spec (l4 + Z.of_nat n) (l4 + Z.of_nat (S n))); cbn [andb]; try lia.
        f_equal. lia.
      + destruct (Z.leb_spec l4 i), (Z.ltb_spec i (l4 + Z.of_nat n)), (Z.ltb_spec i (l4 + Z.of_nat (S n))); cbn [andb]; try lia; reflexivity. }
  destruct (H (Z.to_nat (32 - l4)) (Nat.le_refl _)) as [H1 H2]. cbv zeta in H1, H2. split; [exact H1|].
  intros i Hi. rewrite H2 by lia.
  destruct (Z.leb_spec l4 i), (Z.ltb_spec i (l4 + Z.of_nat (Z.to_nat (32 - l4)))), (Z.ltb_spec i l4); cbn [andb]; try lia; reflexivity.
Qed.

Lemma xlat46_bits : forall e a4, is_u128 (p6_addr (e_p6 e)) -> 0 <= p4_len (e_p4 e) <= 32 ->
  0 <= p6_len (e_p6 e) -> 32 - p4_len (e_p4 e) <= 128 - p6_len (e_p6 e) ->
  is_u128 (eam_xlat_4to6 e a4) /\
  forall i, 0 <= i < 128 -> msb_bit 128 (eam_xlat_4to6 e a4) i =
    if (p6_len (e_p6 e) <=? i) && (i <? p6_len (e_p6 e) + (32 - p4_len (e_p4 e)))
    then msb_bit 32 a4 (p4_len (e_p4 e) + (i - p6_len (e_p6 e)))
    else msb_bit 128 (p6_addr (e_p6 e)) i.
Proof.
  intros e a4 Ha Hl4 Hl6 Hfit. unfold eam_xlat_4to6.
  set (l4 := p4_len (e_p4 e)) in *. set (l6 := p6_len (e_p6 e)) in *.
  assert (H : forall n, (n <= Z.to_nat (32 - l4))%nat ->
    let r := fold_left (fun a6 i => addr6_set_bit a6 (l6 + Z.of_nat i) (addr4_get_bit a4 (l4 + Z.of_nat i))) (seq 0 n) (p6_addr (e_p6 e)) in
    is_u128 r /\ forall i, 0 <= i < 128 -> msb_bit 128 r i =
      if (l6 <=? i) && (i <? l6 + Z.of_nat n) then msb_bit 32 a4 (l4 + (i - l6)) else msb_bit 128 (p6_addr (e_p6 e)) i).
  { induction n as [|n IH]; intros Hn; cbv zeta.
    - cbn [seq fold_left]. split; [exact Ha|]. intros i Hi.
      destruct (Z.leb_spec l6 i), (Z.ltb_spec i (l6 + Z.of_nat 0)); cbn [andb]; try lia; reflexivity.
    - rewrite seq_S, fold_left_app. cbn [fold_left Nat.add].
      destruct IH as [I1 I2]; [lia|]. cbv zeta in I1, I2.
      set (r := fold_left _ (seq 0 n) _) in *. clearbody r.
      destruct (addr6_set_bit_spec r (l6 + Z.of_nat n) (addr4_get_bit a4 (l4 + Z.of_nat n)) I1 ltac:(lia)) as [S1 S2].
      split; [exact S1|]. intros i Hi. rewrite S2 by lia. rewrite I2 by lia. rewrite addr4_get_bit_spec by lia.
      destruct (Z.eqb_spec i (l6 + Z.of_nat n)).
      + subst i. destruct (Z.leb_spec l6 (l6 + Z.of_nat n)), (Z.ltb_spec (l6 + Z.of_nat n) (l6 + Z.of_nat (S n))); cbn [andb]; try lia.
        f_equal. lia.
      + destruct (Z.leb_spec l6 i), (Z.ltb_spec i (l6 + Z.of_nat n)), (Z.ltb_spec i (l6 + Z.of_nat (S n))); cbn [andb]; try lia; reflexivity. }
  destruct (H (Z.to_nat (32 - l4)) (Nat.le_refl _)) as [H1 H2]. cbv zeta in H1, H2. split; [exact H1|].
  intros i Hi. rewrite H2 by lia.
  destruct (Z.leb_spec l6 i), (Z.ltb_spec i (l6 + Z.of_nat (Z.to_nat (32 - l4)))), (Z.ltb_spec i (l6 + (32 - l4))); cbn [andb]; try lia; reflexivity.
Qed.
