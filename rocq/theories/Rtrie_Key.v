(** The byte-level key comparison of rtrie.c computes the common prefix length
    of the bit strings that the trie model uses as keys. *)
Require Import Verif.Base Verif.Addr_Model Verif.Addr_Proofs Verif.Rtrie_Model.

(** The bits of a byte string, most significant first. *)
Definition bits_of (l : list Z) : list bool := flat_map (fun b => map (get_bit b) (seq 0 8)) l.

Lemma bits_of_length : forall l, length (bits_of l) = (8 * length l)%nat.
Proof.
  induction l as [|b l IH]; [reflexivity|]. unfold bits_of in *. cbn [flat_map]. rewrite app_length, IH. cbn. lia.
Qed.

Lemma bits_of_nth : forall l i, (i < 8 * length l)%nat ->
  nth i (bits_of l) false = get_bit (nth (i / 8) l 0) (i mod 8).
Proof.
  induction l as [|b l IH]; intros i Hi; [cbn in Hi; lia|].
  unfold bits_of in *. cbn [flat_map]. cbn [length] in Hi.
  destruct (Nat.lt_ge_cases i 8) as [Hlt|Hge].
  - rewrite app_nth1 by (cbn; lia). rewrite Nat.div_small, Nat.mod_small by lia. cbn [nth].
    rewrite nth_indep with (d' := get_bit b 0) by (rewrite map_length, seq_length; lia).
    rewrite map_nth, seq_nth by lia. reflexivity.
  - rewrite app_nth2 by (cbn; lia). rewrite map_length, seq_length. rewrite IH by lia.
    replace i with (i - 8 + 1 * 8)%nat at 3 4 by lia. rewrite Nat.div_add, Nat.mod_add by lia.
    rewrite Nat.add_1_r. reflexivity.
Qed.

Lemma lcp_char : forall a b m, length a = length b -> (m <= length a)%nat ->
  (forall i, (i < m)%nat -> nth i a false = nth i b false) ->
  ((m < length a)%nat -> nth m a false <> nth m b false) -> lcp a b = m.
Proof.
  induction a as [|x a IH]; intros [|y b] m Hl Hm Heq Hne; cbn [length lcp] in *; try lia.
  destruct m as [|m].
  - assert (x <> y) by (apply Hne; lia). destruct x, y; cbn; congruence.
  - assert (x = y) by (apply (Heq 0%nat); lia). subst. rewrite Bool.eqb_reflx. f_equal.
    apply IH; try lia.
    + intros i Hi. apply (Heq (S i)). lia.
    + intros Hm'. apply Hne. lia.
Qed.

Lemma km_bytes_spec : forall n y k1 k2 y' mm, km_bytes k1 k2 y n = (y', mm) ->
  (y <= y' <= y + n)%nat /\ (forall j, (y <= j < y')%nat -> nth j k1 0 = nth j k2 0) /\
  (if mm then (y' < y + n)%nat /\ nth y' k1 0 <> nth y' k2 0 else y' = (y + n)%nat).
Proof.
  induction n as [|n IH]; intros y k1 k2 y' mm H; cbn [km_bytes] in H.
  - injection H as <- <-. repeat split; intros; lia.
  - destruct (Z.eqb_spec (nth y k1 0) (nth y k2 0)) as [E|E].
    + destruct (IH _ _ _ _ _ H) as (H1 & H2 & H3). split; [lia|]. split.
      * intros j Hj. destruct (Nat.eq_dec j y) as [->|]; [exact E|]. apply H2. lia.
      * destruct mm; [split; [lia|tauto]|lia].
    + injection H as <- <-. split; [lia|]. split; [intros; lia|]. split; [lia|exact E].
Qed.

Lemma km_bits_spec : forall n i b1 b2, let r := km_bits b1 b2 i n in
  (r <= n)%nat /\ (forall j, (j < r)%nat -> get_bit b1 (i + j) = get_bit b2 (i + j)) /\
  ((r < n)%nat -> get_bit b1 (i + r) <> get_bit b2 (i + r)).
Proof.
  induction n as [|n IH]; intros i b1 b2; cbn [km_bits].
  - repeat split; intros; lia.
  - destruct (Bool.eqb (get_bit b1 i) (get_bit b2 i)) eqn:E.
    + apply Bool.eqb_prop in E. destruct (IH (S i) b1 b2) as (H1 & H2 & H3). cbv zeta in *. split; [lia|]. split.
      * intros [|j] Hj; [rewrite Nat.add_0_r; exact E|]. replace (i + S j)%nat with (S i + j)%nat by lia. apply H2. lia.
      * intros Hr. replace (i + S (km_bits b1 b2 (S i) n))%nat with (S i + km_bits b1 b2 (S i) n)%nat by lia.
        apply H3. lia.
    + cbv zeta. repeat split; [lia|intros; lia|]. intros _. rewrite Nat.add_0_r. intros H. rewrite H, Bool.eqb_reflx in E. discriminate.
Qed.

Lemma byte_bits_inj : forall a b, is_u8 a -> is_u8 b ->
  (forall j, (j < 8)%nat -> get_bit a j = get_bit b j) -> a = b.
Proof.
  intros a b Ha Hb H. apply (msb_bits_inj 8); auto. intros i Hi. unfold msb_bit.
  specialize (H (Z.to_nat i)). unfold get_bit in H. rewrite Z2Nat.id in H by lia. apply H. lia.
Qed.

Lemma nth_u8 : forall l i, Forall is_u8 l -> is_u8 (nth i l 0).
Proof.
  intros l i H. destruct (Nat.lt_ge_cases i (length l)).
  - rewrite Forall_forall in H. apply H. apply nth_In. auto.
  - rewrite nth_overflow by lia. unfold is_u8. lia.
Qed.

(** rtrie.c:81-111 agrees with [key_match_n] on the bits. *)
Theorem key_match_bytes_lcp : forall k1 k2 bits,
  Forall is_u8 k1 -> Forall is_u8 k2 -> (bits <= 8 * length k1)%nat -> (bits <= 8 * length k2)%nat ->
  key_match_bytes k1 k2 bits = key_match_n (bits_of k1) (bits_of k2) bits.
Proof.
  intros k1 k2 bits H1 H2 L1 L2. unfold key_match_bytes, key_match_n.
  destruct (km_bytes k1 k2 0 (bits / 8)) as [y mm] eqn:E.
  destruct (km_bytes_spec _ _ _ _ _ _ E) as (Y1 & Y2 & Y3).
  set (n := if mm then 8%nat else (bits mod 8)%nat).
  pose proof (km_bits_spec n 0 (nth y k1 0) (nth y k2 0)) as HB. cbv zeta in HB.
  set (r := km_bits (nth y k1 0) (nth y k2 0) 0 n) in *. destruct HB as (R1 & R2 & R3).
  pose proof (Nat.div_mod bits 8 ltac:(lia)) as Hdm. pose proof (Nat.mod_upper_bound bits 8 ltac:(lia)) as Hub.
  assert (Hr : mm = true -> (r < 8)%nat).
  { intros ->. destruct (Nat.eq_dec r 8); [|lia]. destruct Y3 as [_ Y3]. exfalso. apply Y3.
    apply byte_bits_inj; [apply nth_u8; auto|apply nth_u8; auto|]. intros j Hj. apply (R2 j). lia. }
  assert (Hn8 : (n <= 8)%nat) by (unfold n; destruct mm; lia).
  assert (Hm : (8 * y + r <= bits)%nat) by (unfold n in *; destruct mm; [destruct Y3; specialize (Hr eq_refl)|]; lia).
  assert (Hnth : forall k i, (bits <= 8 * length k)%nat -> (i < bits)%nat ->
     nth i (firstn bits (bits_of k)) false = get_bit (nth (i / 8) k 0) (i mod 8)).
  { intros k i Hk Hi. rewrite <- bits_of_nth by lia.
    rewrite <- (firstn_skipn bits (bits_of k)) at 2. rewrite app_nth1; [reflexivity|].
    rewrite firstn_length, bits_of_length. lia. }
  symmetry. apply lcp_char.
  - rewrite !firstn_length, !bits_of_length. lia.
  - rewrite firstn_length, bits_of_length. lia.
  - intros i Hi. rewrite !Hnth by lia.
    pose proof (Nat.div_mod i 8 ltac:(lia)). pose proof (Nat.mod_upper_bound i 8 ltac:(lia)).
    destruct (Nat.lt_ge_cases (i / 8) y) as [Hlt|Hge].
    + rewrite Y2 by lia. reflexivity.
    + destruct (Nat.eq_dec r 8) as [Er|Er]; [destruct mm; [specialize (Hr eq_refl); lia|unfold n in *; lia]|].
      assert (i / 8 = y)%nat by lia. rewrite H3. apply (R2 (i mod 8)%nat). lia.
  - rewrite firstn_length, bits_of_length. intros Hlt. rewrite !Hnth by lia.
    assert (Hr8 : (r < 8)%nat) by (destruct mm; [auto|unfold n in *; lia]).
    replace ((8 * y + r) / 8)%nat with y by (rewrite (Nat.mul_comm 8), Nat.div_add_l, Nat.div_small by lia; lia).
    replace ((8 * y + r) mod 8)%nat with r by (rewrite Nat.add_comm, (Nat.mul_comm 8), Nat.mod_add, Nat.mod_small by lia; lia).
    apply R3. unfold n. destruct mm; [exact Hr8|]. lia.
Qed.

Lemma get_bit_land : forall b pos, (pos < 8)%nat -> is_u8 b ->
  get_bit b pos = (Z.land (Z.shiftr b (7 - Z.of_nat pos)) 1 =? 1).
Proof.
  intros b pos Hp Hb. unfold get_bit. change 1 with (Z.ones 1) at 1. rewrite Z.land_ones by lia.
  replace (Z.testbit b (7 - Z.of_nat pos)) with (Z.testbit (Z.shiftr b (7 - Z.of_nat pos)) 0) by (rewrite Z.shiftr_spec by lia; f_equal; lia).
  set (x := Z.shiftr b (7 - Z.of_nat pos)).
  change (2 ^ 1) with 2. rewrite <- Z.bit0_mod. destruct (Z.testbit x 0); reflexivity.
Qed.

(** Keys as the model uses them: the first [len] bits of a [w]-bit address. *)
Lemma key_of_octets : forall n a len, (len <= 8 * n)%nat ->
  firstn len (bits_of (octets n a)) = map (fun i => msb_bit (8 * Z.of_nat n) a (Z.of_nat i)) (seq 0 len).
Proof.
  intros n a len Hl.
  assert (Hb : length (bits_of (octets n a)) = (8 * n)%nat) by (rewrite bits_of_length, octets_length; reflexivity).
  apply nth_ext with (d := false) (d' := msb_bit (8 * Z.of_nat n) a (Z.of_nat 0)).
  - rewrite firstn_length, map_length, seq_length. lia.
  - intros i Hi. rewrite firstn_length, Hb in Hi.
    rewrite (map_nth (fun i => msb_bit (8 * Z.of_nat n) a (Z.of_nat i))), seq_nth by lia. cbn [Nat.add].
    replace (nth i (firstn len (bits_of (octets n a))) false) with (nth i (bits_of (octets n a)) false).
    + rewrite bits_of_nth by (rewrite octets_length; lia). 
      pose proof (Nat.div_mod i 8 ltac:(lia)). pose proof (Nat.mod_upper_bound i 8 ltac:(lia)).
      rewrite nth_octets by lia. rewrite msb_bit_octet by lia. unfold get_bit. f_equal; [f_equal|]; lia.
    + rewrite <- (firstn_skipn len (bits_of (octets n a))) at 1. rewrite app_nth1; [reflexivity|].
      rewrite firstn_length. lia.
Qed.
