(** Shared definitions: octets and bits of unsigned integers, list helpers.
    Nothing here transcribes code; it is vocabulary for the models. *)
Require Export ZArith List Lia Bool.
Require Export ZifyBool.
Export ListNotations.
Open Scope Z_scope.

Ltac Zify.zify_post_hook ::= Z.div_mod_to_equations.

(** ** Unsigned machine words *)
Definition u8  (x : Z) : Z := x mod 2^8.
Definition u16 (x : Z) : Z := x mod 2^16.
Definition u32 (x : Z) : Z := x mod 2^32.
Definition u64 (x : Z) : Z := x mod 2^64.

Definition is_u8  (x : Z) : Prop := 0 <= x < 2^8.
Definition is_u16 (x : Z) : Prop := 0 <= x < 2^16.
Definition is_u32 (x : Z) : Prop := 0 <= x < 2^32.
Definition is_u64 (x : Z) : Prop := 0 <= x < 2^64.
Definition is_u128 (x : Z) : Prop := 0 <= x < 2^128.

(** ** Big-endian octet strings *)

(** The number whose big-endian octets are [l]. *)
Definition be_of (l : list Z) : Z := fold_left (fun acc b => acc * 256 + b) l 0.

(** Octet [i] (0 = most significant) of the [n]-octet number [a]. *)
Definition octet (n : nat) (a : Z) (i : nat) : Z :=
  (a / 2 ^ (8 * (Z.of_nat n - 1 - Z.of_nat i))) mod 256.

Definition octets (n : nat) (a : Z) : list Z := map (octet n a) (seq 0 n).

(** Bit [i] (0 = most significant) of the [w]-bit number [a]. *)
Definition msb_bit (w : Z) (a : Z) (i : Z) : bool := Z.testbit a (w - 1 - i).

(** ** Facts *)
Lemma fold_be_acc : forall l acc,
  fold_left (fun acc b => acc * 256 + b) l acc = acc * 256 ^ (Z.of_nat (length l)) + be_of l.
Proof.
  unfold be_of.
  induction l as [|b l IH]; intros acc.
  - cbn [fold_left length]. change (Z.of_nat 0) with 0. rewrite Z.pow_0_r. lia.
  - cbn [fold_left length]. rewrite IH. rewrite (IH (0 * 256 + b)).
    rewrite Nat2Z.inj_succ, Z.pow_succ_r by lia. ring.
Qed.

Lemma be_of_cons : forall b l, be_of (b :: l) = b * 256 ^ (Z.of_nat (length l)) + be_of l.
Proof.
  intros. unfold be_of at 1. cbn [fold_left]. rewrite fold_be_acc. ring.
Qed.

Lemma be_of_bound : forall l, Forall is_u8 l -> 0 <= be_of l < 256 ^ (Z.of_nat (length l)).
Proof.
  induction 1 as [|b l Hb Hl IH].
  - cbn. lia.
  - rewrite be_of_cons. cbn [length]. rewrite Nat2Z.inj_succ, Z.pow_succ_r by lia.
    unfold is_u8 in Hb. change (2^8) with 256 in Hb. nia.
Qed.

Lemma pow256 : forall k, 0 <= k -> 2 ^ (8 * k) = 256 ^ k.
Proof. intros. rewrite Z.pow_mul_r by lia. reflexivity. Qed.

Lemma octet_be_of : forall l i, Forall is_u8 l -> (i < length l)%nat ->
  octet (length l) (be_of l) i = nth i l 0.
Proof.
  intros l i Hl. revert i. induction Hl as [|b l Hb Hl IH]; intros i Hi.
  - cbn in Hi. lia.
  - unfold octet. rewrite be_of_cons. cbn [length].
    pose proof (be_of_bound l Hl) as HB.
    destruct i as [|i].
    + cbn [nth]. replace (8 * (Z.of_nat (S (length l)) - 1 - Z.of_nat 0)) with (8 * Z.of_nat (length l)) by lia.
      rewrite pow256 by lia.
      rewrite Z.add_comm, Z.div_add by lia. rewrite Z.div_small by lia.
      unfold is_u8 in Hb. rewrite Z.mod_small; lia.
    + cbn [nth]. cbn [length] in Hi. rewrite <- IH by lia. unfold octet.
      replace (8 * (Z.of_nat (S (length l)) - 1 - Z.of_nat (S i))) with (8 * (Z.of_nat (length l) - 1 - Z.of_nat i)) by lia.
      set (k := Z.of_nat (length l) - 1 - Z.of_nat i).
      assert (Hk : 0 <= k) by (unfold k; lia).
      rewrite pow256 by lia.
      replace (Z.of_nat (length l)) with (k + 1 + Z.of_nat i) by (unfold k; lia).
      rewrite !Z.pow_add_r by lia. rewrite Z.pow_1_r.
      replace (b * (256 ^ k * 256 * 256 ^ Z.of_nat i) + be_of l)
        with (be_of l + (b * 256 ^ Z.of_nat i * 256) * 256 ^ k) by ring.
      rewrite Z.div_add by lia. rewrite Z.mod_add by lia. reflexivity.
Qed.

Lemma octet_is_u8 : forall n a i, is_u8 (octet n a i).
Proof. intros. unfold octet, is_u8. change (2^8) with 256. apply Z.mod_pos_bound. lia. Qed.

Lemma be_of_octets_aux : forall n k a,
  be_of (map (octet (k + n) a) (seq k n)) = a mod 256 ^ Z.of_nat n.
Proof.
  induction n as [|n IH]; intros k a.
  - cbn. rewrite Z.mod_1_r. reflexivity.
  - cbn [seq map]. rewrite be_of_cons. rewrite map_length, seq_length.
    replace (k + S n)%nat with (S k + n)%nat by lia. rewrite IH.
    unfold octet.
    replace (8 * (Z.of_nat (S k + n) - 1 - Z.of_nat k)) with (8 * Z.of_nat n) by lia.
    rewrite pow256 by lia. rewrite Nat2Z.inj_succ, Z.pow_succ_r by lia.
    assert (0 < 256 ^ Z.of_nat n) by (apply Z.pow_pos_nonneg; lia).
    rewrite (Z.mul_comm 256). rewrite Z.rem_mul_r by lia. ring.
Qed.

Lemma be_of_octets : forall n a, 0 <= a < 256 ^ Z.of_nat n -> be_of (octets n a) = a.
Proof.
  intros. unfold octets. pose proof (be_of_octets_aux n 0 a) as H0. cbn [Nat.add] in H0.
  rewrite H0. apply Z.mod_small. exact H.
Qed.

Lemma octets_length : forall n a, length (octets n a) = n.
Proof. intros. unfold octets. rewrite map_length, seq_length. reflexivity. Qed.

Lemma octets_u8 : forall n a, Forall is_u8 (octets n a).
Proof.
  intros. unfold octets. apply Forall_forall. intros x Hx.
  apply in_map_iff in Hx. destruct Hx as (i & <- & _). apply octet_is_u8.
Qed.

Lemma nth_octets : forall n a i, (i < n)%nat -> nth i (octets n a) 0 = octet n a i.
Proof.
  intros. unfold octets.
  rewrite nth_indep with (d' := octet n a 0) by (rewrite map_length, seq_length; lia).
  rewrite map_nth. rewrite seq_nth by lia. reflexivity.
Qed.

Lemma octets_inj : forall n a b, 0 <= a < 256 ^ Z.of_nat n -> 0 <= b < 256 ^ Z.of_nat n ->
  octets n a = octets n b -> a = b.
Proof.
  intros n a b Ha Hb E. rewrite <- (be_of_octets n a Ha), <- (be_of_octets n b Hb), E. reflexivity.
Qed.

Lemma testbit_high : forall a w i, 0 <= a < 2^w -> w <= i -> Z.testbit a i = false.
Proof.
  intros a w i Ha Hi. destruct (Z.eq_dec a 0) as [->|Hn]; [apply Z.bits_0|].
  apply Z.bits_above_log2; [lia|]. apply Z.log2_lt_pow2; [lia|].
  assert (2^w <= 2^i).
  { destruct (Z_lt_le_dec w 0). rewrite Z.pow_neg_r in Ha by lia. lia. apply Z.pow_le_mono_r; lia. }
  lia.
Qed.

(** Bits of equal-width numbers determine them. *)
Lemma msb_bits_inj : forall w a b, 0 <= a < 2^w -> 0 <= b < 2^w ->
  (forall i, 0 <= i < w -> msb_bit w a i = msb_bit w b i) -> a = b.
Proof.
  intros w a b Ha Hb H. apply Z.bits_inj'. intros n Hn.
  destruct (Z_lt_le_dec n w) as [Hlt|Hge].
  - specialize (H (w - 1 - n)). unfold msb_bit in H.
    replace (w - 1 - (w - 1 - n)) with n in H by lia. apply H. lia.
  - rewrite (testbit_high a w), (testbit_high b w); auto.
Qed.
