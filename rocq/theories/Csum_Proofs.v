(** Lemmas: one's complement arithmetic is arithmetic modulo 65535. *)
Require Import Verif.Base Verif.Csum_Model Verif.Csum_Spec.
Local Ltac Zify.zify_post_hook ::= idtac.

(** ** Congruence *)
Definition cong (a b : Z) : Prop := exists k, a = b + 65535 * k.
Lemma cong_refl : forall a, cong a a. Proof. intros a. exists 0. lia. Qed.
Lemma cong_sym : forall a b, cong a b -> cong b a. Proof. intros a b [k ->]. exists (-k). lia. Qed.
Lemma cong_trans : forall a b c, cong a b -> cong b c -> cong a c.
Proof. intros a b c [k ->] [j ->]. exists (k + j). lia. Qed.
Lemma cong_add : forall a b c d, cong a b -> cong c d -> cong (a + c) (b + d).
Proof. intros a b c d [k ->] [j ->]. exists (k + j). lia. Qed.
Lemma cong_sub : forall a b c d, cong a b -> cong c d -> cong (a - c) (b - d).
Proof. intros a b c d [k ->] [j ->]. exists (k - j). lia. Qed.
Lemma cong_opp : forall a b, cong a b -> cong (- a) (- b).
Proof. intros a b [k ->]. exists (-k). lia. Qed.
Lemma cong_mul : forall x a b, cong a b -> cong (x * a) (x * b).
Proof. intros x a b [k ->]. exists (x * k). lia. Qed.
Lemma cong0 : forall a, cong a 0 <-> a mod 65535 = 0.
Proof.
  intros a. split.
  - intros [k ->]. rewrite Z.mul_comm, Z.add_0_l. apply Z.mod_mul. lia.
  - intros H. apply Z.div_exact in H; [|lia]. exists (a / 65535). lia.
Qed.
Lemma cong_iff0 : forall a b, cong a b -> (a mod 65535 = 0 <-> b mod 65535 = 0).
Proof.
  intros a b H. rewrite <- !cong0. split; intros K.
  - eapply cong_trans; [apply cong_sym; exact H|exact K].
  - eapply cong_trans; eassumption.
Qed.

(** ** The helpers *)
Lemma not32_cong : forall x, cong (not32 x) (- x).
Proof. intros x. exists 65537. unfold not32. lia. Qed.
Lemma not16_cong : forall x, cong (not16 x) (- x).
Proof. intros x. exists 1. unfold not16. lia. Qed.
Lemma not32_u32 : forall x, is_u32 x -> is_u32 (not32 x).
Proof. unfold is_u32, not32. change (2^32) with 4294967296. lia. Qed.

Lemma csum_add_alt : forall a b, is_u32 a -> is_u32 b ->
  csum_add a b = if a + b <? 4294967296 then a + b else a + b - 4294967295.
Proof.
  intros a b Ha Hb. unfold is_u32 in *. change (2^32) with 4294967296 in *.
  unfold csum_add, u32. change (2^32) with 4294967296. cbv zeta.
  destruct (a + b <? 4294967296) eqn:L.
  - rewrite Z.mod_small by lia. assert ((a + b <? b) = false) as -> by lia. lia.
  - replace ((a + b) mod 4294967296) with (a + b - 4294967296).
    2:{ symmetry. rewrite <- (Z.mod_small (a + b - 4294967296) 4294967296) by lia.
        rewrite <- (Z.mod_add (a + b - 4294967296) 1 4294967296) by lia. f_equal. lia. }
    assert ((a + b - 4294967296 <? b) = true) as -> by lia. lia.
Qed.
Lemma csum_add_u32 : forall a b, is_u32 a -> is_u32 b -> is_u32 (csum_add a b).
Proof.
  intros a b Ha Hb. rewrite csum_add_alt by assumption. unfold is_u32 in *. change (2^32) with 4294967296 in *.
  destruct (a + b <? 4294967296) eqn:L; lia.
Qed.
Lemma csum_add_cong : forall a b, is_u32 a -> is_u32 b -> cong (csum_add a b) (a + b).
Proof.
  intros a b Ha Hb. rewrite csum_add_alt by assumption.
  destruct (a + b <? 4294967296); [exists 0|exists (-65537)]; lia.
Qed.
Lemma csum_add_zero : forall a b, is_u32 a -> is_u32 b -> (csum_add a b = 0 <-> a = 0 /\ b = 0).
Proof.
  intros a b Ha Hb. rewrite csum_add_alt by assumption. unfold is_u32 in *. change (2^32) with 4294967296 in *.
  destruct (a + b <? 4294967296) eqn:L; lia.
Qed.
Lemma csum_sub_u32 : forall a b, is_u32 a -> is_u32 b -> is_u32 (csum_sub a b).
Proof. intros. apply csum_add_u32; [assumption|apply not32_u32; assumption]. Qed.
Lemma csum_sub_cong : forall a b, is_u32 a -> is_u32 b -> cong (csum_sub a b) (a - b).
Proof.
  intros a b Ha Hb. eapply cong_trans; [apply csum_add_cong; [assumption|apply not32_u32; assumption]|].
  replace (a - b) with (a + - b) by lia. apply cong_add; [apply cong_refl|apply not32_cong].
Qed.

Local Ltac Zify.zify_post_hook ::= Z.div_mod_to_equations.
Lemma csum_fold_u16 : forall s, is_u32 s -> is_u16 (csum_fold s).
Proof. intros s Hs. unfold is_u32, is_u16, csum_fold, not16 in *. change (2^32) with 4294967296 in *. change (2^16) with 65536. lia. Qed.
Lemma csum_fold_cong : forall s, is_u32 s -> cong (csum_fold s) (- s).
Proof.
  intros s Hs. unfold csum_fold, not16, is_u32 in *. change (2^32) with 4294967296 in *. cbv zeta.
  set (s1 := s mod 65536 + s / 65536).
  exists (1 + s1 / 65536 + s / 65536). subst s1. lia.
Qed.
Lemma csum_fold_ffff : forall s, is_u32 s -> (csum_fold s = 65535 <-> s = 0).
Proof. intros s Hs. unfold is_u32, csum_fold, not16 in *. change (2^32) with 4294967296 in *. lia. Qed.
Lemma csum_fold_zero : forall s, is_u32 s -> (csum_fold s = 0 <-> s <> 0 /\ s mod 65535 = 0).
Proof.
  intros s Hs. rewrite <- cong0. pose proof (csum_fold_u16 s Hs) as U. pose proof (csum_fold_cong s Hs) as [k E].
  pose proof (csum_fold_ffff s Hs) as F. unfold is_u16 in U. change (2^16) with 65536 in U. split.
  - intros Z0. split; [lia|]. exists k. lia.
  - intros [N [j E']]. assert (csum_fold s = 65535 * (k - j)) by lia. lia.
Qed.
Local Ltac Zify.zify_post_hook ::= idtac.

(** Checksums depend only on the class of the sum and on whether it is zero, so
    the order in which an architecture adds the words is irrelevant. *)
Lemma fold_class : forall a b, is_u32 a -> is_u32 b -> cong a b -> (a = 0 <-> b = 0) -> csum_fold a = csum_fold b.
Proof.
  intros a b Ha Hb C Z0.
  pose proof (csum_fold_u16 a Ha) as Ua. pose proof (csum_fold_u16 b Hb) as Ub.
  pose proof (csum_fold_cong a Ha) as [k E]. pose proof (csum_fold_cong b Hb) as [j E'].
  pose proof (csum_fold_ffff a Ha) as F. pose proof (csum_fold_ffff b Hb) as F'.
  destruct C as [i C]. unfold is_u16 in *. change (2^16) with 65536 in *.
  assert (csum_fold a - csum_fold b = 65535 * (k - j - i)) by lia. lia.
Qed.

(** ** Word sums *)
(** The words of the octets in the machine's order, added as numbers. *)
Fixpoint hs (le : bool) (m : list Z) : Z :=
  match m with [] => 0 | [a] => ld16 le a 0 | a :: b :: m' => ld16 le a b + hs le m' end.

Lemma list2_ind : forall (P : list Z -> Prop), P [] -> (forall a, P [a]) -> (forall a b m, P m -> P (a :: b :: m)) -> forall m, P m.
Proof.
  intros P H0 H1 H2 m. assert (H : P m /\ forall a, P (a :: m)); [|apply H].
  induction m as [|x m [IH1 IH2]]; split; auto.
Qed.

Lemma ld16_bound : forall le a b, is_u8 a -> is_u8 b -> 0 <= ld16 le a b < 65536.
Proof. unfold is_u8, ld16. change (2^8) with 256. intros le a b Ha Hb. destruct le; lia. Qed.
Lemma ld16_zero : forall le a b, is_u8 a -> is_u8 b -> (ld16 le a b = 0 <-> a = 0 /\ b = 0).
Proof. unfold is_u8, ld16. change (2^8) with 256. intros le a b Ha Hb. destruct le; lia. Qed.
Lemma ld16_add : forall le a b c d, ld16 le a b + ld16 le c d = ld16 le (a + c) (b + d).
Proof. intros. unfold ld16. destruct le; lia. Qed.

Lemma hs_nonneg : forall le m, Forall is_u8 m -> 0 <= hs le m.
Proof.
  intros le m. induction m as [|a|a b m IH] using list2_ind; intros F; cbn [hs]; [lia| |].
  - inversion F; subst. apply ld16_bound; [assumption|red; change (2^8) with 256; lia].
  - inversion F as [|? ? Ha F']; subst. inversion F' as [|? ? Hb F'']; subst. specialize (IH F''). pose proof (ld16_bound le a b Ha Hb). lia.
Qed.
Lemma hs_zero : forall le m, Forall is_u8 m -> (hs le m = 0 <-> Forall (fun x => x = 0) m).
Proof.
  intros le m. induction m as [|a|a b m IH] using list2_ind; intros F; cbn [hs].
  - split; auto.
  - inversion F; subst. rewrite ld16_zero by (auto; red; change (2^8) with 256; lia). split.
    + intros [-> _]. repeat constructor.
    + intros K. inversion K; subst. auto.
  - inversion F as [|? ? Ha F']; subst. inversion F' as [|? ? Hb F'']; subst. specialize (IH F'').
    pose proof (ld16_bound le a b Ha Hb). pose proof (hs_nonneg le m F''). pose proof (ld16_zero le a b Ha Hb). split.
    + intros K. assert (ld16 le a b = 0) by lia. assert (hs le m = 0) by lia. constructor; [tauto|]. constructor; tauto.
    + intros K. inversion K as [|? ? Ka K']; subst. inversion K' as [|? ? Kb K'']; subst.
      assert (hs le m = 0) by tauto. assert (ld16 le 0 0 = 0) by tauto. lia.
Qed.
Lemma wsum_hs : forall m, wsum m = hs false m.
Proof.
  intros m. induction m as [|a|a b m IH] using list2_ind; cbn [wsum hs]; unfold ld16; lia.
Qed.
Lemma hs_swap : forall m, cong (256 * hs true m) (wsum m).
Proof.
  intros m. induction m as [|a|a b m [k IH]] using list2_ind; cbn [wsum hs]; unfold ld16.
  - apply cong_refl.
  - exists 0. lia.
  - exists (b + k). lia.
Qed.
Lemma wsum_class : forall le m, wsum m mod 65535 = 0 <-> hs le m mod 65535 = 0.
Proof.
  intros [|] m; [|rewrite wsum_hs; tauto]. rewrite <- !cong0. split; intros H.
  - assert (K : cong (256 * hs true m) 0) by (eapply cong_trans; [apply hs_swap|exact H]).
    destruct K as [k K]. exists (256 * k - hs true m). lia.
  - eapply cong_trans; [apply cong_sym, hs_swap|]. change 0 with (256 * 0). apply cong_mul. exact H.
Qed.
Lemma wsum_zero : forall le m, Forall is_u8 m -> (wsum m = 0 <-> hs le m = 0).
Proof. intros le m F. rewrite wsum_hs, !hs_zero by assumption. tauto. Qed.
Lemma checks_hs : forall le m, Forall is_u8 m -> (checks m <-> hs le m <> 0 /\ hs le m mod 65535 = 0).
Proof. intros le m F. unfold checks. rewrite (wsum_class le), (wsum_zero le) by assumption. tauto. Qed.

Lemma hs_app : forall le a b, Nat.even (length a) = true -> hs le (a ++ b) = hs le a + hs le b.
Proof.
  intros le a b. induction a as [|x|x y a IH] using list2_ind; cbn [length app hs]; intros E; [lia|discriminate|].
  rewrite IH by exact E. lia.
Qed.
Lemma hs_split : forall le n m, Nat.even n = true -> hs le m = hs le (firstn n m) + hs le (skipn n m).
Proof.
  intros le n m E. destruct (Nat.leb_spec (length m) n).
  - rewrite firstn_all2, skipn_all2 by lia. cbn. lia.
  - rewrite <- (firstn_skipn n m) at 1. apply hs_app. rewrite firstn_length, Nat.min_l by lia. exact E.
Qed.

(** ** Writing *)
Lemma nth_skipn_add : forall n (l : list Z) i, nth i (skipn n l) 0 = nth (n + i) l 0.
Proof. induction n as [|n IH]; intros [|a l] i; cbn; auto. destruct i; reflexivity. Qed.
Lemma nth_firstn_lt : forall n (l : list Z) i, (i < n)%nat -> nth i (firstn n l) 0 = nth i l 0.
Proof. induction n as [|n IH]; intros [|a l] [|i] H; cbn; auto; try lia. apply IH. lia. Qed.
Lemma put_length : forall off x m, (off + length x <= length m)%nat -> length (put off x m) = length m.
Proof. intros. unfold put. rewrite !app_length, firstn_length, skipn_length. lia. Qed.
Lemma put_nth : forall off x m i, (off + length x <= length m)%nat ->
  nth i (put off x m) 0 = if andb (off <=? i)%nat (i <? off + length x)%nat then nth (i - off) x 0 else nth i m 0.
Proof.
  intros off x m i L. unfold put.
  assert (LF : length (firstn off m) = off) by (rewrite firstn_length; lia).
  destruct (Nat.leb_spec off i), (Nat.ltb_spec i (off + length x)); cbn [andb].
  - rewrite app_nth2 by lia. rewrite LF. rewrite app_nth1 by lia. reflexivity.
  - rewrite app_nth2 by lia. rewrite LF. rewrite app_nth2 by lia.
    rewrite nth_skipn_add. f_equal. lia.
  - rewrite app_nth1 by lia. apply nth_firstn_lt. lia.
  - lia.
Qed.
Lemma put_u8 : forall off x m, Forall is_u8 x -> Forall is_u8 m -> Forall is_u8 (put off x m).
Proof.
  intros off x m Fx Fm. unfold put. rewrite <- (firstn_skipn off m) in Fm. apply Forall_app in Fm. destruct Fm as [F1 F2].
  apply Forall_app. split; [assumption|]. apply Forall_app. split; [assumption|].
  clear F1 Fx. revert m F2. induction off as [|off IH]; intros m F2.
  - cbn [Nat.add skipn] in *. rewrite <- (firstn_skipn (length x) m) in F2. apply Forall_app in F2. apply F2.
  - destruct m as [|z m]; [constructor|]. cbn [Nat.add skipn] in *. apply IH. assumption.
Qed.
Lemma firstn_put : forall n off x m, (off + length x <= n)%nat -> (n <= length m)%nat ->
  firstn n (put off x m) = put off x (firstn n m).
Proof.
  intros n off x m L1 L2. apply nth_ext with (d := 0) (d' := 0).
  - rewrite firstn_length, !put_length; rewrite ?firstn_length; lia.
  - intros i Hi. rewrite firstn_length, put_length in Hi by lia.
    rewrite put_nth by (rewrite firstn_length; lia).
    rewrite !nth_firstn_lt by lia. rewrite put_nth by lia. reflexivity.
Qed.
Lemma skipn_put : forall n off x m, (off + length x <= n)%nat -> (off + length x <= length m)%nat ->
  skipn n (put off x m) = skipn n m.
Proof.
  intros n off x m L1 L2. apply nth_ext with (d := 0) (d' := 0).
  - rewrite !skipn_length, put_length by lia. reflexivity.
  - intros i _. rewrite !nth_skipn_add, put_nth by lia.
    assert ((off <=? n + i)%nat && (n + i <? off + length x)%nat = false) as -> by (apply andb_false_intro2, Nat.ltb_ge; lia).
    reflexivity.
Qed.
Lemma put_put : forall off x y m, length x = length y -> (off + length x <= length m)%nat -> put off x (put off y m) = put off x m.
Proof.
  intros off x y m E L. apply nth_ext with (d := 0) (d' := 0).
  - rewrite !put_length; rewrite ?put_length; lia.
  - intros i _. rewrite !put_nth by (rewrite ?put_length; lia). rewrite E. destruct (_ && _); reflexivity.
Qed.
Lemma hs_put : forall le off x y m, Nat.even off = true -> (S (S off) <= length m)%nat ->
  hs le (put off [x; y] m) = hs le m - get16 le off m + ld16 le x y.
Proof.
  intros le off x y m E L. unfold put.
  assert (LF : length (firstn off m) = off) by (rewrite firstn_length; lia).
  rewrite hs_app by (rewrite LF; exact E). cbn [app hs].
  rewrite (hs_split le off m E).
  assert (K : skipn off m = nth off m 0 :: nth (S off) m 0 :: skipn (off + 2) m).
  { clear E LF. revert m L. induction off as [|off IH]; intros [|a m] L; cbn [length] in L; try lia.
    - destruct m as [|b m]; cbn [length] in L; [lia|]. reflexivity.
    - cbn [skipn nth Nat.add]. rewrite IH by lia. reflexivity. }
  rewrite K. cbn [hs length]. unfold get16. lia.
Qed.

(** ** The 16 bit field *)
Lemma st16_form : forall le v, exists a b, st16 le v = [a; b] /\ ld16 le a b = v /\ (is_u16 v -> is_u8 a /\ is_u8 b).
Proof.
  intros le v. unfold st16, ld16, is_u16, is_u8. change (2^16) with 65536. change (2^8) with 256.
  pose proof (Z.div_mod v 256 ltac:(lia)). pose proof (Z.mod_pos_bound v 256 ltac:(lia)).
  destruct le; eexists _, _; (split; [reflexivity|]); (split; [lia|]); intros; repeat split; try lia;
    try (apply Z.div_pos; lia); try (apply Z.div_lt_upper_bound; lia).
Qed.
Lemma st16_length : forall le v, length (st16 le v) = 2%nat.
Proof. intros [|] v; reflexivity. Qed.
Lemma st16_u8 : forall le v, is_u16 v -> Forall is_u8 (st16 le v).
Proof. intros le v H. destruct (st16_form le v) as (a & b & -> & _ & K). destruct (K H). auto. Qed.
Lemma hs_put_st : forall le off v m, Nat.even off = true -> (S (S off) <= length m)%nat ->
  hs le (put off (st16 le v) m) = hs le m - get16 le off m + v.
Proof. intros. destruct (st16_form le v) as (a & b & -> & <- & _). apply hs_put; assumption. Qed.
Lemma get16_put : forall le off v m, (S (S off) <= length m)%nat -> get16 le off (put off (st16 le v) m) = v.
Proof.
  intros le off v m L. destruct (st16_form le v) as (a & b & -> & <- & _). unfold get16.
  rewrite !put_nth by (cbn [length]; lia). cbn [length].
  assert ((off <=? off)%nat && (off <? off + 2)%nat = true) as -> by (apply andb_true_intro; split; [apply Nat.leb_le|apply Nat.ltb_lt]; lia).
  assert ((off <=? S off)%nat && (S off <? off + 2)%nat = true) as -> by (apply andb_true_intro; split; [apply Nat.leb_le|apply Nat.ltb_lt]; lia).
  rewrite Nat.sub_diag. replace (S off - off)%nat with 1%nat by lia. reflexivity.
Qed.
Lemma get16_put0 : forall le off m, (S (S off) <= length m)%nat -> get16 le off (put off [0; 0] m) = 0.
Proof. intros. replace [0; 0] with (st16 le 0) by (destruct le; reflexivity). apply get16_put. assumption. Qed.
Lemma get16_u16 : forall le off m, Forall is_u8 m -> is_u16 (get16 le off m).
Proof.
  intros le off m F. unfold get16, is_u16. change (2^16) with 65536.
  assert (N : forall i, is_u8 (nth i m 0)).
  { intros i. destruct (Nat.ltb_spec i (length m)).
    - rewrite Forall_forall in F. apply F. apply nth_In. assumption.
    - rewrite nth_overflow by lia. red. change (2^8) with 256. lia. }
  apply ld16_bound; apply N.
Qed.

(** ** csum_partial and the magics *)
Lemma u8_0 : is_u8 0. Proof. red. change (2^8) with 256. lia. Qed.
Lemma ld16_u32 : forall le a b, is_u8 a -> is_u8 b -> is_u32 (ld16 le a b).
Proof. intros le a b Ha Hb. pose proof (ld16_bound le a b Ha Hb). red. change (2^32) with 4294967296. lia. Qed.
Lemma u16_u32 : forall x, is_u16 x -> is_u32 x.
Proof. unfold is_u16, is_u32. change (2^16) with 65536. change (2^32) with 4294967296. lia. Qed.
Lemma u32_0 : is_u32 0. Proof. red. change (2^32) with 4294967296. lia. Qed.

Lemma csum_partial_spec : forall le m s, Forall is_u8 m -> is_u32 s ->
  is_u32 (csum_partial le m s) /\ cong (csum_partial le m s) (s + hs le m) /\ (csum_partial le m s = 0 <-> s = 0 /\ hs le m = 0).
Proof.
  intros le m. induction m as [|a|a b m IH] using list2_ind; intros s F S0; cbn [csum_partial hs].
  - repeat split; try assumption; try apply S0; [rewrite Z.add_0_r; apply cong_refl|tauto].
  - inversion F as [|? ? Ha]; subst. pose proof (ld16_u32 le a 0 Ha u8_0) as U.
    split; [apply csum_add_u32; assumption|]. split; [apply csum_add_cong; assumption|]. apply csum_add_zero; assumption.
  - inversion F as [|? ? Ha F']; subst. inversion F' as [|? ? Hb F'']; subst.
    pose proof (ld16_u32 le a b Ha Hb) as U. pose proof (csum_add_u32 s (ld16 le a b) S0 U) as U'.
    destruct (IH _ F'' U') as (I1 & I2 & I3). split; [assumption|]. split.
    + eapply cong_trans; [exact I2|]. rewrite Z.add_assoc. apply cong_add; [apply csum_add_cong; assumption|apply cong_refl].
    + rewrite I3. rewrite (csum_add_zero s _ S0 U). pose proof (ld16_bound le a b Ha Hb). pose proof (hs_nonneg le m F''). lia.
Qed.

Lemma ld32_spec : forall le a b c d, is_u8 a -> is_u8 b -> is_u8 c -> is_u8 d ->
  is_u32 (ld32 le a b c d) /\ cong (ld32 le a b c d) (ld16 le a b + ld16 le c d) /\ (ld32 le a b c d = 0 <-> ld16 le a b = 0 /\ ld16 le c d = 0).
Proof.
  intros le a b c d Ha Hb Hc Hd. pose proof (ld16_bound le a b Ha Hb). pose proof (ld16_bound le c d Hc Hd).
  unfold ld32, is_u32. change (2^32) with 4294967296.
  destruct le; (split; [lia|]); (split; [|lia]); [exists (ld16 true c d)|exists (ld16 false a b)]; lia.
Qed.
Lemma add_words32_spec : forall le n m s, length m = (4 * n)%nat -> Forall is_u8 m -> is_u32 s ->
  is_u32 (add_words32 le m s) /\ cong (add_words32 le m s) (s + hs le m) /\ (add_words32 le m s = 0 <-> s = 0 /\ hs le m = 0).
Proof.
  intros le. induction n as [|n IH]; intros m s L F S0.
  - destruct m; [|discriminate]. cbn. repeat split; try assumption; try apply S0; [rewrite Z.add_0_r; apply cong_refl|tauto].
  - destruct m as [|a [|b [|c [|d m]]]]; cbn [length] in L; try lia. cbn [add_words32 hs].
    inversion F as [|? ? Ha F1]; subst. inversion F1 as [|? ? Hb F2]; subst. inversion F2 as [|? ? Hc F3]; subst. inversion F3 as [|? ? Hd F4]; subst.
    destruct (ld32_spec le a b c d Ha Hb Hc Hd) as (U & C & Z0).
    pose proof (csum_add_u32 s _ S0 U) as U'.
    destruct (IH m _ ltac:(lia) F4 U') as (I1 & I2 & I3). split; [assumption|]. split.
    + eapply cong_trans; [exact I2|].
      eapply cong_trans; [apply cong_add; [apply csum_add_cong; assumption|apply cong_refl]|].
      destruct C as [k C]. exists k. lia.
    + rewrite I3, (csum_add_zero s _ S0 U), Z0.
      pose proof (ld16_bound le a b Ha Hb). pose proof (ld16_bound le c d Hc Hd). pose proof (hs_nonneg le m F4). lia.
Qed.

Lemma htonl_spec : forall le x, is_u32 (htonl le x) /\ cong (htonl le x) (hs le (octets 4 x)) /\ (htonl le x = 0 <-> hs le (octets 4 x) = 0).
Proof.
  intros le x. unfold htonl. destruct (ld32_spec le (octet 4 x 0) (octet 4 x 1) (octet 4 x 2) (octet 4 x 3)) as (U & C & Z0);
    try apply octet_is_u8.
  change (hs le (octets 4 x)) with (ld16 le (octet 4 x 0) (octet 4 x 1) + (ld16 le (octet 4 x 2) (octet 4 x 3) + 0)).
  rewrite Z.add_0_r. split; [assumption|]. split; [assumption|]. rewrite Z0.
  pose proof (ld16_bound le _ _ (octet_is_u8 4 x 0) (octet_is_u8 4 x 1)). pose proof (ld16_bound le _ _ (octet_is_u8 4 x 2) (octet_is_u8 4 x 3)). lia.
Qed.
Lemma hs_octets_nonneg : forall le n x, 0 <= hs le (octets n x).
Proof. intros. apply hs_nonneg, octets_u8. Qed.

(** The sum under csum_ipv6_magic's fold. *)
Lemma ipv6_magic_spec : forall le src dst len proto sum, is_u32 sum ->
  exists t, csum_ipv6_magic le src dst len proto sum = csum_fold t /\ is_u32 t /\
    cong t (sum + hs le (octets 16 src) + hs le (octets 16 dst) + hs le (octets 4 len) + hs le (octets 4 proto)) /\
    (t = 0 <-> sum = 0 /\ hs le (octets 16 src) = 0 /\ hs le (octets 16 dst) = 0 /\ hs le (octets 4 len) = 0 /\ hs le (octets 4 proto) = 0).
Proof.
  intros le src dst len proto sum S0. unfold csum_ipv6_magic. cbv zeta.
  destruct (add_words32_spec le 4 (octets 16 src) sum (octets_length 16 src) (octets_u8 _ _) S0) as (U1 & C1 & Z1).
  set (s1 := add_words32 le (octets 16 src) sum) in *.
  destruct (add_words32_spec le 4 (octets 16 dst) s1 (octets_length 16 dst) (octets_u8 _ _) U1) as (U2 & C2 & Z2).
  set (s2 := add_words32 le (octets 16 dst) s1) in *.
  destruct (htonl_spec le len) as (U3 & C3 & Z3). destruct (htonl_spec le proto) as (U4 & C4 & Z4).
  pose proof (csum_add_u32 _ _ U2 U3) as U5. pose proof (csum_add_u32 _ _ U5 U4) as U6.
  eexists. split; [reflexivity|]. split; [exact U6|]. split.
  - eapply cong_trans; [apply csum_add_cong; assumption|]. apply cong_add; [|assumption].
    eapply cong_trans; [apply csum_add_cong; assumption|]. apply cong_add; [|assumption].
    eapply cong_trans; [exact C2|]. apply cong_add; [assumption|apply cong_refl].
  - rewrite (csum_add_zero _ _ U5 U4), (csum_add_zero _ _ U2 U3), Z2, Z1, Z3, Z4. tauto.
Qed.
Lemma ipv6_magic_cong : forall le src dst len proto sum, is_u32 sum ->
  is_u16 (csum_ipv6_magic le src dst len proto sum) /\
  cong (csum_ipv6_magic le src dst len proto sum)
    (- (sum + hs le (octets 16 src) + hs le (octets 16 dst) + hs le (octets 4 len) + hs le (octets 4 proto))).
Proof.
  intros le src dst len proto sum S0. destruct (ipv6_magic_spec le src dst len proto sum S0) as (t & -> & U & C & _).
  split; [apply csum_fold_u16; assumption|]. eapply cong_trans; [apply csum_fold_cong; assumption|]. apply cong_opp. exact C.
Qed.

(** ** Folding away the octets *)
Lemma hs4_small : forall le x, 0 <= x < 65536 -> hs le (octets 4 x) = hs le (octets 2 x).
Proof.
  intros le x Hx.
  change (hs le (octets 4 x)) with (ld16 le (octet 4 x 0) (octet 4 x 1) + (ld16 le (octet 4 x 2) (octet 4 x 3) + 0)).
  change (hs le (octets 2 x)) with (ld16 le (octet 2 x 0) (octet 2 x 1) + 0).
  change (octet 4 x 0) with ((x / 16777216) mod 256). change (octet 4 x 1) with ((x / 65536) mod 256).
  change (octet 4 x 2) with ((x / 256) mod 256). change (octet 4 x 3) with ((x / 1) mod 256).
  change (octet 2 x 0) with ((x / 256) mod 256). change (octet 2 x 1) with ((x / 1) mod 256).
  rewrite (Z.div_small x 16777216), (Z.div_small x 65536) by lia.
  destruct le; unfold ld16; rewrite !Z.mod_0_l by lia; lia.
Qed.
Lemma hs2_val : forall le x, 0 <= x < 65536 -> hs le (octets 2 x) = ld16 le (x / 256) (x mod 256).
Proof.
  intros le x Hx. change (hs le (octets 2 x)) with (ld16 le (octet 2 x 0) (octet 2 x 1) + 0). rewrite Z.add_0_r.
  change (octet 2 x 0) with ((x / 256) mod 256). change (octet 2 x 1) with ((x / 1) mod 256). rewrite Z.div_1_r.
  rewrite (Z.mod_small (x / 256)); [reflexivity|]. split; [apply Z.div_pos; lia|apply Z.div_lt_upper_bound; lia].
Qed.

Lemma tcpudp_nofold_spec : forall le src dst len proto sum, is_u32 sum -> 0 <= len <= 65535 -> 0 <= proto < 256 ->
  is_u32 (csum_tcpudp_nofold le src dst len proto sum) /\
  cong (csum_tcpudp_nofold le src dst len proto sum)
    (sum + hs le (octets 4 src) + hs le (octets 4 dst) + (ld16 le 0 proto + hs le (octets 2 len))) /\
  (csum_tcpudp_nofold le src dst len proto sum = 0 <->
     sum = 0 /\ hs le (octets 4 src) = 0 /\ hs le (octets 4 dst) = 0 /\ len + proto = 0).
Proof.
  intros le src dst len proto sum S0 L P. unfold csum_tcpudp_nofold. cbv zeta.
  destruct (htonl_spec le src) as (U1 & C1 & Z1). destruct (htonl_spec le dst) as (U2 & C2 & Z2).
  pose proof (csum_add_u32 _ _ S0 U1) as U3. pose proof (csum_add_u32 _ _ U3 U2) as U4.
  set (t := if le then u32 ((proto + len) * 256) else proto + len).
  assert (T : is_u32 t /\ cong t (ld16 le 0 proto + hs le (octets 2 len)) /\ (t = 0 <-> len + proto = 0)).
  { rewrite hs2_val by lia. subst t.
    unfold is_u32, u32, ld16. change (2^32) with 4294967296.
    pose proof (Z.div_mod len 256 ltac:(lia)). pose proof (Z.mod_pos_bound len 256 ltac:(lia)).
    destruct le.
    - rewrite (Z.mod_small ((proto + len) * 256)) by lia. split; [lia|]. split; [|lia]. exists (len / 256). lia.
    - split; [lia|]. split; [|lia]. exists 0. lia. }
  destruct T as (U5 & C5 & Z5).
  split; [apply csum_add_u32; assumption|]. split.
  - eapply cong_trans; [apply csum_add_cong; assumption|]. apply cong_add; [|assumption].
    eapply cong_trans; [apply csum_add_cong; assumption|]. apply cong_add; [|assumption].
    eapply cong_trans; [apply csum_add_cong; assumption|]. apply cong_add; [apply cong_refl|assumption].
  - rewrite (csum_add_zero _ _ U4 U5), (csum_add_zero _ _ U3 U2), (csum_add_zero _ _ S0 U1), Z1, Z2, Z5. tauto.
Qed.

(** ** Correct datagrams *)
Lemma pseudo4_hs : forall le s d p n, hs le (pseudo4 s d p n) = hs le (octets 4 s) + hs le (octets 4 d) + ld16 le 0 p + hs le (octets 2 n).
Proof.
  intros. unfold pseudo4. rewrite !hs_app by (rewrite ?octets_length; reflexivity). cbn [hs]. lia.
Qed.
Lemma pseudo6_hs : forall le s d p n, hs le (pseudo6 s d p n) = hs le (octets 16 s) + hs le (octets 16 d) + hs le (octets 4 n) + ld16 le 0 p.
Proof.
  intros. unfold pseudo6. rewrite !hs_app by (rewrite ?octets_length; reflexivity). cbn [hs]. unfold ld16. destruct le; lia.
Qed.
Lemma pseudo4_u8 : forall s d p n, is_u8 p -> Forall is_u8 (pseudo4 s d p n).
Proof.
  intros. unfold pseudo4. repeat (apply Forall_app; split; [apply octets_u8|]).
  apply Forall_app; split; [|apply octets_u8]. repeat constructor; try apply u8_0; apply H.
Qed.
Lemma pseudo6_u8 : forall s d p n, is_u8 p -> Forall is_u8 (pseudo6 s d p n).
Proof.
  intros. unfold pseudo6. repeat (apply Forall_app; split; [apply octets_u8|]).
  repeat constructor; try apply u8_0; apply H.
Qed.
Lemma ld16_0_pos : forall le p, 0 < p < 256 -> 0 < ld16 le 0 p.
Proof. intros. unfold ld16. destruct le; lia. Qed.

(** The part of the sums that differs between IPv4 and IPv6. *)
Definition a4 (le : bool) (s d : Z) : Z := hs le (octets 4 s) + hs le (octets 4 d).
Definition a6 (le : bool) (s d : Z) : Z := hs le (octets 16 s) + hs le (octets 16 d).
(** ... and the part that does not. *)
Definition pl (le : bool) (p : Z) (seg : list Z) : Z := ld16 le 0 p + hs le (octets 2 (Z.of_nat (length seg))).

Lemma ok4_hs : forall le s d p seg, 0 < p < 256 -> Forall is_u8 seg ->
  (ok4 s d p seg <-> (a4 le s d + pl le p seg + hs le seg) mod 65535 = 0).
Proof.
  intros le s d p seg P F. unfold ok4.
  assert (Pu : is_u8 p) by (red; change (2^8) with 256; lia).
  rewrite (checks_hs le) by (apply Forall_app; split; [apply pseudo4_u8|]; assumption).
  rewrite hs_app by (unfold pseudo4; rewrite !app_length, !octets_length; reflexivity).
  rewrite pseudo4_hs. unfold a4, pl.
  replace (hs le (octets 4 s) + hs le (octets 4 d) + ld16 le 0 p + hs le (octets 2 (Z.of_nat (length seg))) + hs le seg)
    with (hs le (octets 4 s) + hs le (octets 4 d) + (ld16 le 0 p + hs le (octets 2 (Z.of_nat (length seg)))) + hs le seg) by lia.
  pose proof (hs_octets_nonneg le 4 s). pose proof (hs_octets_nonneg le 4 d). pose proof (hs_octets_nonneg le 2 (Z.of_nat (length seg))).
  pose proof (ld16_0_pos le p P). pose proof (hs_nonneg le seg F). split; [tauto|]. intros K. split; [lia|exact K].
Qed.
Lemma ok6_hs : forall le s d p seg, 0 < p < 256 -> datagram seg ->
  (ok6 s d p seg <-> (a6 le s d + pl le p seg + hs le seg) mod 65535 = 0).
Proof.
  intros le s d p seg P [F L]. unfold ok6.
  assert (Pu : is_u8 p) by (red; change (2^8) with 256; lia).
  rewrite (checks_hs le) by (apply Forall_app; split; [apply pseudo6_u8|]; assumption).
  rewrite hs_app by (unfold pseudo6; rewrite !app_length, !octets_length; reflexivity).
  rewrite pseudo6_hs. unfold a6, pl. rewrite hs4_small by lia.
  replace (hs le (octets 16 s) + hs le (octets 16 d) + hs le (octets 2 (Z.of_nat (length seg))) + ld16 le 0 p + hs le seg)
    with (hs le (octets 16 s) + hs le (octets 16 d) + (ld16 le 0 p + hs le (octets 2 (Z.of_nat (length seg)))) + hs le seg) by lia.
  pose proof (hs_octets_nonneg le 16 s). pose proof (hs_octets_nonneg le 16 d). pose proof (hs_octets_nonneg le 2 (Z.of_nat (length seg))).
  pose proof (ld16_0_pos le p P). pose proof (hs_nonneg le seg F). split; [tauto|]. intros K. split; [lia|exact K].
Qed.

(** ** The incremental updates *)
Lemma hs_oct0 : forall le n, hs le (octets n 0) = 0.
Proof.
  intros le n. apply hs_zero; [apply octets_u8|]. unfold octets. apply Forall_forall. intros x H. apply in_map_iff in H.
  destruct H as (i & <- & _). unfold octet. rewrite Zdiv_0_l. reflexivity.
Qed.

Definition delta (le : bool) (c : Z) (cin xin cout : Z) : Prop := is_u16 c /\ c <> 65535 /\ cong (c + cout) (cin + xin).

Lemma pseudohdr6_spec : forall le s d, is_u32 (pseudohdr6_csum le s d) /\ cong (pseudohdr6_csum le s d) (a6 le s d).
Proof.
  intros le s d. unfold pseudohdr6_csum. destruct (ipv6_magic_cong le s d 0 0 0 u32_0) as (U & C). split.
  - apply not32_u32, u16_u32, U.
  - eapply cong_trans; [apply not32_cong|]. rewrite !hs_oct0 in C. unfold a6. destruct C as [k C]. exists (-k). lia.
Qed.
Lemma pseudohdr4_spec : forall le s d, is_u32 (csum_tcpudp_nofold le s d 0 0 0) /\ cong (csum_tcpudp_nofold le s d 0 0 0) (a4 le s d).
Proof.
  intros le s d. destruct (tcpudp_nofold_spec le s d 0 0 0 u32_0 ltac:(lia) ltac:(lia)) as (U & C & _). split; [assumption|].
  rewrite hs_oct0 in C. unfold a4. destruct C as [k C]. exists k. assert (ld16 le 0 0 = 0) by (destruct le; reflexivity). lia.
Qed.

Lemma not32_u16_nz : forall c, is_u16 c -> is_u32 (not32 c) /\ not32 c <> 0.
Proof. intros c U. unfold is_u16, is_u32, not32 in *. change (2^16) with 65536 in *. change (2^32) with 4294967296. lia. Qed.
Lemma csum_add_nz : forall a b, is_u32 a -> is_u32 b -> a <> 0 -> csum_add a b <> 0.
Proof. intros a b Ha Hb N K. apply csum_add_zero in K; tauto. Qed.
Lemma csum_sub_nz : forall a b, is_u32 a -> is_u32 b -> a <> 0 -> csum_sub a b <> 0.
Proof. intros a b Ha Hb N. apply csum_add_nz; [assumption|apply not32_u32; assumption|assumption]. Qed.

(** Removing two sums and adding two others. *)
Lemma update_spec : forall c x1 x2 y1 y2, is_u16 c -> is_u32 x1 -> is_u32 x2 -> is_u32 y1 -> is_u32 y2 ->
  let r := csum_fold (csum_add (csum_add (csum_sub (csum_sub (not32 c) x1) x2) y1) y2) in
  is_u16 r /\ r <> 65535 /\ cong (r + y1 + y2) (c + x1 + x2).
Proof.
  intros c x1 x2 y1 y2 Hc H1 H2 H3 H4. cbv zeta.
  destruct (not32_u16_nz c Hc) as (U0 & N0).
  pose proof (csum_sub_u32 _ _ U0 H1) as U1. pose proof (csum_sub_nz _ _ U0 H1 N0) as N1.
  pose proof (csum_sub_u32 _ _ U1 H2) as U2. pose proof (csum_sub_nz _ _ U1 H2 N1) as N2.
  pose proof (csum_add_u32 _ _ U2 H3) as U3. pose proof (csum_add_nz _ _ U2 H3 N2) as N3.
  pose proof (csum_add_u32 _ _ U3 H4) as U4. pose proof (csum_add_nz _ _ U3 H4 N3) as N4.
  split; [apply csum_fold_u16; assumption|]. split; [intros K; apply csum_fold_ffff in K; tauto|].
  destruct (not32_cong c) as [k0 K0]. destruct (csum_sub_cong _ _ U0 H1) as [k1 K1]. destruct (csum_sub_cong _ _ U1 H2) as [k2 K2].
  destruct (csum_add_cong _ _ U2 H3) as [k3 K3]. destruct (csum_add_cong _ _ U3 H4) as [k4 K4]. destruct (csum_fold_cong _ U4) as [k5 K5].
  exists (k5 - k4 - k3 - k2 - k1 - k0). lia.
Qed.
Lemma partial0 : forall le m, Forall is_u8 m -> is_u32 (csum_partial le m 0) /\ cong (csum_partial le m 0) (hs le m).
Proof. intros le m F. destruct (csum_partial_spec le m 0 F u32_0) as (U & C & _). rewrite Z.add_0_l in C. auto. Qed.
Lemma update64_spec : forall le c s6 d6 hin s4 d4 hout, is_u16 c -> Forall is_u8 hin -> Forall is_u8 hout ->
  let r := update_csum_6to4 le c s6 d6 hin s4 d4 hout in
  is_u16 r /\ r <> 65535 /\ cong (r + a4 le s4 d4 + hs le hout) (c + a6 le s6 d6 + hs le hin).
Proof.
  intros le c s6 d6 hin s4 d4 hout Hc Fi Fo.
  destruct (pseudohdr6_spec le s6 d6) as (U1 & [k1 C1]). destruct (pseudohdr4_spec le s4 d4) as (U2 & [k2 C2]).
  destruct (partial0 le hin Fi) as (U3 & [k3 C3]). destruct (partial0 le hout Fo) as (U4 & [k4 C4]).
  pose proof (update_spec c _ _ _ _ Hc U1 U3 U2 U4) as (A & B & [k C]).
  unfold update_csum_6to4, pseudohdr4_csum. cbv zeta. split; [exact A|]. split; [exact B|]. 
  exists (k + k1 + k3 - k2 - k4). lia.
Qed.
Lemma update46_eq : forall le c s4 d4 hin s6 d6 hout, update_csum_4to6 le c s4 d4 hin s6 d6 hout =
  csum_fold (csum_add (csum_add (csum_sub (csum_sub (not32 c) (csum_tcpudp_nofold le s4 d4 0 0 0)) (csum_partial le hin 0))
    (pseudohdr6_csum le s6 d6)) (csum_partial le hout 0)).
Proof. intros. unfold pseudohdr6_csum. reflexivity. Qed.
Lemma update46_spec : forall le c s4 d4 hin s6 d6 hout, is_u16 c -> Forall is_u8 hin -> Forall is_u8 hout ->
  let r := update_csum_4to6 le c s4 d4 hin s6 d6 hout in
  is_u16 r /\ r <> 65535 /\ cong (r + a6 le s6 d6 + hs le hout) (c + a4 le s4 d4 + hs le hin).
Proof.
  intros le c s4 d4 hin s6 d6 hout Hc Fi Fo.
  destruct (pseudohdr6_spec le s6 d6) as (U1 & [k1 C1]). destruct (pseudohdr4_spec le s4 d4) as (U2 & [k2 C2]).
  destruct (partial0 le hin Fi) as (U3 & [k3 C3]). destruct (partial0 le hout Fo) as (U4 & [k4 C4]).
  pose proof (update_spec c _ _ _ _ Hc U2 U3 U1 U4) as (A & B & [k C]).
  cbv zeta. rewrite update46_eq.
  split; [exact A|]. split; [exact B|]. exists (k + k2 + k3 - k1 - k4). lia.
Qed.

(** ** Segments *)
Lemma firstn_u8 : forall n m, Forall is_u8 m -> Forall is_u8 (firstn n m).
Proof. intros n m F. rewrite <- (firstn_skipn n m) in F. apply Forall_app in F. apply F. Qed.
Lemma skipn_u8 : forall n m, Forall is_u8 m -> Forall is_u8 (skipn n m).
Proof. intros n m F. rewrite <- (firstn_skipn n m) in F. apply Forall_app in F. apply F. Qed.
Lemma new_ports_length : forall p m, (4 <= length m)%nat -> length (new_ports p m) = length m.
Proof. intros [[s d]|] m L; [|reflexivity]. cbn [new_ports]. apply put_length. rewrite app_length, !octets_length. lia. Qed.
Lemma new_ports_u8 : forall p m, Forall is_u8 m -> Forall is_u8 (new_ports p m).
Proof.
  intros [[s d]|] m F; [|assumption]. cbn [new_ports]. apply put_u8; [|assumption].
  apply Forall_app. split; apply octets_u8.
Qed.
Lemma new_ports_skipn : forall p m n, (4 <= n)%nat -> (4 <= length m)%nat -> skipn n (new_ports p m) = skipn n m.
Proof. intros [[s d]|] m n N L; [|reflexivity]. cbn [new_ports]. apply skipn_put; rewrite app_length, !octets_length; lia. Qed.
Lemma new_ports_firstn : forall p m n, (4 <= n)%nat -> (n <= length m)%nat -> firstn n (new_ports p m) = new_ports p (firstn n m).
Proof. intros [[s d]|] m n N L; [|reflexivity]. cbn [new_ports]. apply firstn_put; rewrite ?app_length, ?octets_length; lia. Qed.
Lemma u8_00 : Forall is_u8 [0; 0]. Proof. repeat constructor; apply u8_0. Qed.

(** [off] is the checksum's offset in a header of [n] octets. *)
Definition layout (off n : nat) : Prop := Nat.even off = true /\ (4 <= off)%nat /\ Nat.even n = true /\ (off + 2 <= n)%nat.

Lemma seg_in : forall le off n seg, layout off n -> (n <= length seg)%nat ->
  hs le seg = get16 le off seg + hs le (put off [0; 0] (firstn n seg)) + hs le (skipn n seg).
Proof.
  intros le off n seg (E & L4 & En & Ln) L. rewrite hs_put by (try assumption; rewrite firstn_length; lia).
  rewrite (hs_split le n seg En) at 1. unfold get16 at 2. rewrite !nth_firstn_lt by lia. unfold get16.
  assert (Z0 : ld16 le 0 0 = 0) by (destruct le; reflexivity). lia.
Qed.
Lemma seg_out : forall le off n ports seg c, layout off n -> (n <= length seg)%nat ->
  let out := put off [0; 0] (new_ports ports seg) in
  hs le (put off (st16 le c) out) = c + hs le (firstn n out) + hs le (skipn n seg).
Proof.
  intros le off n ports seg c (E & L4 & En & Ln) L out.
  assert (LP : length (new_ports ports seg) = length seg) by (apply new_ports_length; lia).
  assert (LO : length out = length seg) by (subst out; rewrite put_length by (cbn [length]; lia); assumption).
  rewrite hs_put_st by (try assumption; lia).
  assert (G : get16 le off out = 0) by (subst out; apply get16_put0; lia).
  rewrite G. rewrite (hs_split le n out En). 
  assert (SK : skipn n out = skipn n seg).
  { subst out. rewrite skipn_put by (cbn [length]; lia). apply new_ports_skipn; lia. }
  rewrite SK. lia.
Qed.

Lemma same_but_out : forall le off n ports seg c x, layout off n -> (n <= length seg)%nat -> good_ports ports -> length x = 2%nat ->
  same_but off ports seg (put off (st16 le c) (put off x (new_ports ports seg))).
Proof.
  intros le off n ports seg c x (E & L4 & En & Ln) L G X.
  assert (LP : length (new_ports ports seg) = length seg) by (apply new_ports_length; lia).
  rewrite put_put by (rewrite st16_length; lia). 
  assert (N : forall i, i <> off -> i <> S off -> nth i (put off (st16 le c) (new_ports ports seg)) 0 = nth i (new_ports ports seg) 0).
  { intros i N1 N2. rewrite put_nth by (rewrite st16_length; lia). rewrite st16_length.
    destruct (Nat.leb_spec off i), (Nat.ltb_spec i (off + 2)); cbn [andb]; try reflexivity. lia. }
  split; [rewrite put_length by (rewrite st16_length; lia); assumption|]. split.
  - intros i Hi N1 N2. rewrite N by assumption. destruct ports as [[s d]|]; [|reflexivity]. cbn [new_ports].
    assert (L2 : length (octets 2 s ++ octets 2 d) = 4%nat) by (rewrite app_length, !octets_length; reflexivity).
    rewrite put_nth by lia. rewrite L2. assert ((0 <=? i)%nat && (i <? 0 + 4)%nat = false) as -> by (apply andb_false_intro2, Nat.ltb_ge; lia). reflexivity.
  - destruct ports as [[s d]|]; [|intros i Hi; apply N; lia]. destruct G as (Gs & Gd).
    rewrite !N by lia. cbn [new_ports].
    assert (L2 : length (octets 2 s ++ octets 2 d) = 4%nat) by (rewrite app_length, !octets_length; reflexivity).
    rewrite !put_nth by lia. rewrite L2. cbn [Nat.leb Nat.ltb Nat.sub Nat.add andb].
    change (octets 2 s ++ octets 2 d) with [octet 2 s 0; octet 2 s 1; octet 2 d 0; octet 2 d 1]. cbn [nth].
    assert (B : forall x, is_u16 x -> 256 * octet 2 x 0 + octet 2 x 1 = x).
    { intros z Hz. change (octet 2 z 0) with ((z / 256) mod 256). change (octet 2 z 1) with ((z / 1) mod 256). rewrite Z.div_1_r.
      red in Hz. change (2^16) with 65536 in Hz. rewrite (Z.mod_small (z / 256)).
      - pose proof (Z.div_mod z 256 ltac:(lia)). lia.
      - split; [apply Z.div_pos; lia|apply Z.div_lt_upper_bound; lia]. }
    split; apply B; assumption.
Qed.

(** The general statements: a header of [n] octets with the checksum at [off]. *)
Lemma upd64_ok : forall le off n p ports s6 d6 s4 d4 seg c, layout off n -> 0 < p < 256 -> datagram seg -> (n <= length seg)%nat ->
  let out := put off [0; 0] (new_ports ports seg) in
  let r := update_csum_6to4 le (get16 le off seg) s6 d6 (put off [0; 0] (firstn n seg)) s4 d4 (firstn n out) in
  cong c r -> is_u16 c ->
  (ok6 s6 d6 p seg <-> ok4 s4 d4 p (put off (st16 le c) out)).
Proof.
  intros le off n p ports s6 d6 s4 d4 seg c Lay P D L out r Cc Uc. pose proof D as [F Len].
  assert (Fo : Forall is_u8 out) by (apply put_u8; [apply u8_00|apply new_ports_u8; assumption]).
  assert (LP : length (new_ports ports seg) = length seg) by (destruct Lay as (_ & ? & _ & ?); apply new_ports_length; lia).
  assert (LO : length out = length seg) by (destruct Lay as (_ & ? & _ & ?); subst out; rewrite put_length by (cbn [length]; lia); assumption).
  rewrite (ok6_hs le) by assumption.
  rewrite (ok4_hs le) by first [assumption|apply put_u8; [apply st16_u8; assumption|assumption]].
  destruct (update64_spec le (get16 le off seg) s6 d6 (put off [0; 0] (firstn n seg)) s4 d4 (firstn n out)) as (_ & _ & [k K]);
    [apply get16_u16; assumption|apply put_u8; [apply u8_00|apply firstn_u8; assumption]|apply firstn_u8; assumption|].
  fold r in K. apply cong_iff0.
  assert (PL : pl le p (put off (st16 le c) out) = pl le p seg).
  { unfold pl. rewrite put_length by (rewrite st16_length; destruct Lay as (_ & ? & _ & ?); lia). rewrite LO. reflexivity. }
  rewrite PL, (seg_in le off n seg Lay L). unfold out. rewrite (seg_out le off n ports seg c Lay L). fold out.
  destruct Cc as [j ->]. exists (- k - j). lia.
Qed.
Lemma upd46_ok : forall le off n p ports s4 d4 s6 d6 seg c, layout off n -> 0 < p < 256 -> datagram seg -> (n <= length seg)%nat ->
  let out := put off [0; 0] (new_ports ports seg) in
  let r := update_csum_4to6 le (get16 le off seg) s4 d4 (put off [0; 0] (firstn n seg)) s6 d6 (firstn n out) in
  cong c r -> is_u16 c ->
  (ok4 s4 d4 p seg <-> ok6 s6 d6 p (put off (st16 le c) out)).
Proof.
  intros le off n p ports s4 d4 s6 d6 seg c Lay P D L out r Cc Uc. pose proof D as [F Len].
  assert (Fo : Forall is_u8 out) by (apply put_u8; [apply u8_00|apply new_ports_u8; assumption]).
  assert (LP : length (new_ports ports seg) = length seg) by (destruct Lay as (_ & ? & _ & ?); apply new_ports_length; lia).
  assert (LO : length out = length seg) by (destruct Lay as (_ & ? & _ & ?); subst out; rewrite put_length by (cbn [length]; lia); assumption).
  assert (LO' : length (put off (st16 le c) out) = length seg) by (rewrite put_length by (rewrite st16_length; destruct Lay as (_ & ? & _ & ?); lia); assumption).
  rewrite (ok4_hs le) by assumption.
  rewrite (ok6_hs le) by first [assumption|split; [apply put_u8; [apply st16_u8; assumption|assumption]|rewrite LO'; assumption]].
  destruct (update46_spec le (get16 le off seg) s4 d4 (put off [0; 0] (firstn n seg)) s6 d6 (firstn n out)) as (_ & _ & [k K]);
    [apply get16_u16; assumption|apply put_u8; [apply u8_00|apply firstn_u8; assumption]|apply firstn_u8; assumption|].
  fold r in K. apply cong_iff0.
  assert (PL : pl le p (put off (st16 le c) out) = pl le p seg) by (unfold pl; rewrite LO'; reflexivity).
  rewrite PL, (seg_in le off n seg Lay L). unfold out. rewrite (seg_out le off n ports seg c Lay L). fold out.
  destruct Cc as [j ->]. exists (- k - j). lia.
Qed.

(** ** Checksums left to the system *)
Lemma fix0_cong : forall c, cong (if c =? 0 then 65535 else c) c.
Proof. intros c. destruct (c =? 0) eqn:E; [exists 1; lia|apply cong_refl]. Qed.
Lemma fix0_u16 : forall c, is_u16 c -> is_u16 (if c =? 0 then 65535 else c) /\ (if c =? 0 then 65535 else c) <> 0.
Proof. intros c U. unfold is_u16 in *. change (2^16) with 65536 in *. destruct (c =? 0) eqn:E; lia. Qed.

Lemma finish_form : forall le off f m, Nat.even off = true -> (S (S off) <= length m)%nat -> Forall is_u8 m -> is_u16 f ->
  exists c, finish_partial le off (put off (st16 le f) m) = put off (st16 le c) m /\ is_u16 c /\ c <> 0 /\
    cong (hs le (put off (st16 le c) m)) (- f).
Proof.
  intros le off f m E L F U. unfold finish_partial.
  set (m0 := put off (st16 le f) m).
  assert (F0 : Forall is_u8 m0) by (apply put_u8; [apply st16_u8|]; assumption).
  assert (L0 : length m0 = length m) by (apply put_length; rewrite st16_length; lia).
  destruct (partial0 le m0 F0) as (U0 & [k0 K0]).
  pose proof (csum_fold_u16 _ U0) as UF. destruct (csum_fold_cong _ U0) as [k1 K1].
  destruct (fix0_u16 _ UF) as (UC & NC). destruct (fix0_cong (csum_fold (csum_partial le m0 0))) as [k2 K2].
  set (c := if csum_fold (csum_partial le m0 0) =? 0 then 65535 else csum_fold (csum_partial le m0 0)) in *.
  exists c. subst m0. rewrite put_put by (rewrite !st16_length; lia). split; [reflexivity|]. split; [exact UC|]. split; [exact NC|].
  rewrite hs_put_st in * by (try assumption; lia).
  exists (k1 + k2 - k0). lia.
Qed.
Lemma not16_u16 : forall x, is_u16 x -> is_u16 (not16 x).
Proof. unfold is_u16, not16. change (2^16) with 65536. lia. Qed.
Lemma magic4_cong : forall le s d n p, 0 <= n <= 65535 -> 0 <= p < 256 ->
  is_u16 (csum_tcpudp_magic le s d n p 0) /\ cong (csum_tcpudp_magic le s d n p 0) (- (a4 le s d + (ld16 le 0 p + hs le (octets 2 n)))).
Proof.
  intros le s d n p Hn Hp. unfold csum_tcpudp_magic.
  destruct (tcpudp_nofold_spec le s d n p 0 u32_0 Hn Hp) as (U & C & _). split; [apply csum_fold_u16; assumption|].
  eapply cong_trans; [apply csum_fold_cong; assumption|]. apply cong_opp. exact C.
Qed.
Lemma hs4_byte : forall le p, 0 <= p < 256 -> hs le (octets 4 p) = ld16 le 0 p.
Proof. intros le p P. rewrite hs4_small, hs2_val by lia. rewrite Z.div_small, Z.mod_small by lia. reflexivity. Qed.
Lemma magic6_cong : forall le s d n p t, 0 <= n <= 65535 -> 0 <= p < 256 -> is_u32 t ->
  is_u16 (csum_ipv6_magic le s d n p t) /\ cong (csum_ipv6_magic le s d n p t) (- (t + a6 le s d + (ld16 le 0 p + hs le (octets 2 n)))).
Proof.
  intros le s d n p t Hn Hp U. destruct (ipv6_magic_cong le s d n p t U) as (U1 & C). split; [assumption|].
  rewrite hs4_small, hs4_byte in C by lia. eapply cong_trans; [exact C|]. unfold a6. apply cong_opp.
  match goal with |- cong ?x ?y => replace y with x by lia end. apply cong_refl.
Qed.
Lemma not16_opp : forall x y, cong x (- y) -> cong (not16 x) y.
Proof. intros x y [k E]. exists (1 - k). unfold not16. lia. Qed.
Lemma finish_ok : forall le off f m a, Nat.even off = true -> (S (S off) <= length m)%nat -> Forall is_u8 m -> is_u16 f -> cong f a ->
  exists c, finish_partial le off (put off (st16 le f) m) = put off (st16 le c) m /\ is_u16 c /\ c <> 0 /\
    cong (a + hs le (put off (st16 le c) m)) 0.
Proof.
  intros le off f m a E L F U C. destruct (finish_form le off f m E L F U) as (c & Ec & Uc & Nc & K). exists c.
  split; [exact Ec|]. split; [exact Uc|]. split; [exact Nc|]. destruct C as [i C]. destruct K as [j K]. exists (j - i). lia.
Qed.
Lemma finish4_ok : forall le off p s d (seg m : list Z) f, Nat.even off = true -> (S (S off) <= length m)%nat -> datagram m -> length seg = length m -> 0 < p < 256 ->
  f = not16 (csum_tcpudp_magic le s d (Z.of_nat (length seg)) p 0) ->
  exists c, finish_partial le off (put off (st16 le f) m) = put off (st16 le c) m /\ is_u16 c /\ c <> 0 /\ ok4 s d p (put off (st16 le c) m).
Proof.
  intros le off p s d seg m f E L [F Lm] EL P Ef.
  destruct (magic4_cong le s d (Z.of_nat (length seg)) p ltac:(lia) ltac:(lia)) as (U & C).
  apply not16_opp in C. apply not16_u16 in U. rewrite <- Ef in U, C. clear Ef.
  destruct (finish_ok le off f m _ E L F U C) as (c & Ec & Uc & Nc & K). exists c.
  split; [exact Ec|]. split; [exact Uc|]. split; [exact Nc|].
  apply (ok4_hs le); [assumption|apply put_u8; [apply st16_u8|]; assumption|].
  apply cong0. unfold pl. rewrite put_length by (rewrite st16_length; lia). rewrite <- EL. exact K.
Qed.
Lemma finish6_ok : forall le off p s d (seg m : list Z) f, Nat.even off = true -> (S (S off) <= length m)%nat -> datagram m -> length seg = length m -> 0 < p < 256 ->
  f = not16 (csum_ipv6_magic le s d (Z.of_nat (length seg)) p 0) ->
  exists c, finish_partial le off (put off (st16 le f) m) = put off (st16 le c) m /\ is_u16 c /\ c <> 0 /\ ok6 s d p (put off (st16 le c) m).
Proof.
  intros le off p s d seg m f E L [F Lm] EL P Ef.
  destruct (magic6_cong le s d (Z.of_nat (length seg)) p 0 ltac:(lia) ltac:(lia) u32_0) as (U & C).
  apply not16_opp in C. apply not16_u16 in U. rewrite <- Ef in U, C. clear Ef. rewrite Z.add_0_l in C.
  destruct (finish_ok le off f m _ E L F U C) as (c & Ec & Uc & Nc & K). exists c.
  split; [exact Ec|]. split; [exact Uc|]. split; [exact Nc|].
  assert (LP : length (put off (st16 le c) m) = length m) by (apply put_length; rewrite st16_length; lia).
  apply (ok6_hs le); [assumption|split; [apply put_u8; [apply st16_u8|]; assumption|lia]|].
  apply cong0. unfold pl. rewrite LP. rewrite <- EL. exact K.
Qed.

(** ** skb_list_csum *)
Lemma list_csum_total : forall (frags : list (list Z)) n, fold_left (fun n f => n + Z.of_nat (length f)) frags n = n + Z.of_nat (length (concat frags)).
Proof. induction frags as [|f fs IH]; intros n; cbn [fold_left concat length]; [lia|]. rewrite IH, app_length. lia. Qed.
Lemma list_csum_sum : forall le frags s, Forall (fun f => Nat.even (length f) = true) (removelast frags) -> Forall is_u8 (concat frags) -> is_u32 s ->
  is_u32 (fold_left (fun c f => csum_partial le f c) frags s) /\
  cong (fold_left (fun c f => csum_partial le f c) frags s) (s + hs le (concat frags)).
Proof.
  intros le. induction frags as [|f fs IH]; intros s Ev F U; cbn [fold_left concat].
  - split; [assumption|]. cbn. rewrite Z.add_0_r. apply cong_refl.
  - cbn [concat] in F. apply Forall_app in F. destruct F as [F1 F2].
    destruct (csum_partial_spec le f s F1 U) as (U1 & C1 & _).
    destruct fs as [|g gs].
    + cbn [fold_left concat]. rewrite app_nil_r. auto.
    + change (removelast (f :: g :: gs)) with (f :: removelast (g :: gs)) in Ev. inversion Ev as [|? ? Ef Ev']; subst.
      destruct (IH _ Ev' F2 U1) as (U2 & C2). split; [exact U2|]. eapply cong_trans; [exact C2|].
      rewrite hs_app by assumption. rewrite Z.add_assoc. apply cong_add; [exact C1|apply cong_refl].
Qed.
(** The octets of the fragments, as one datagram, with the checksum at [off] of the first. *)
Lemma list_csum_ok : forall le off p s d out next, Nat.even off = true -> (S (S off) <= length out)%nat -> 0 < p < 256 ->
  Forall (fun f => Nat.even (length f) = true) (removelast (out :: next)) -> datagram (out ++ concat next) ->
  let o := put off [0; 0] out in
  ok6 s d p (put off (st16 le (skb_list_csum le (o :: next) s d p)) o ++ concat next).
Proof.
  intros le off p s d out next E L P Ev [F Len] o.
  assert (LO : length o = length out) by (apply put_length; cbn [length]; lia).
  apply Forall_app in F. destruct F as [F1 F2].
  assert (Fo : Forall is_u8 o) by (apply put_u8; [apply u8_00|assumption]).
  assert (Ev' : Forall (fun f => Nat.even (length f) = true) (removelast (o :: next))).
  { destruct next as [|g gs]; [constructor|]. change (removelast (o :: g :: gs)) with (o :: removelast (g :: gs)).
    change (removelast (out :: g :: gs)) with (out :: removelast (g :: gs)) in Ev. inversion Ev; subst. constructor; [rewrite LO|]; assumption. }
  assert (Fc : Forall is_u8 (concat (o :: next))) by (cbn [concat]; apply Forall_app; auto).
  destruct (list_csum_sum le (o :: next) 0 Ev' Fc u32_0) as (U & [k K]).
  unfold skb_list_csum. rewrite list_csum_total. rewrite Z.add_0_l.
  set (t := fold_left _ (o :: next) 0) in *. set (n := Z.of_nat (length (concat (o :: next)))).
  assert (Bn : 0 <= n <= 65535) by (subst n; cbn [concat]; rewrite app_length in *; lia).
  destruct (magic6_cong le s d n p t Bn ltac:(lia) U) as (Um & [j J]). generalize dependent (csum_ipv6_magic le s d n p t). intros c Um J.
  assert (LP : length (put off (st16 le c) o) = length o) by (apply put_length; rewrite st16_length; lia).
  assert (En : n = Z.of_nat (length (put off (st16 le c) o ++ concat next))) by (subst n; cbn [concat]; rewrite !app_length, LP; reflexivity).
  apply (ok6_hs le); [assumption|split; [apply Forall_app; split; [apply put_u8; [apply st16_u8|]; assumption|assumption]|lia]|].
  apply cong0. unfold pl. rewrite <- En.
  assert (H : hs le (put off (st16 le c) o ++ concat next) = hs le (concat (o :: next)) + c).
  { cbn [concat]. destruct next as [|g gs].
    - cbn [concat]. rewrite !app_nil_r. rewrite hs_put_st by (try assumption; lia). unfold o. rewrite get16_put0 by assumption. lia.
    - change (removelast (o :: g :: gs)) with (o :: removelast (g :: gs)) in Ev'. inversion Ev' as [|? ? Eo _]; subst.
      rewrite !hs_app by (rewrite ?LP; assumption). rewrite hs_put_st by (try assumption; lia). unfold o at 2. rewrite get16_put0 by assumption. lia. }
  rewrite H. exists (j - k). lia.
Qed.

(** ** Fragments *)
Lemma put_app : forall off x a b, (off + length x <= length a)%nat -> put off x (a ++ b) = put off x a ++ b.
Proof.
  intros off x a b L. unfold put. rewrite firstn_app, skipn_app.
  replace (off - length a)%nat with 0%nat by lia. replace (off + length x - length a)%nat with 0%nat by lia.
  cbn [firstn skipn]. rewrite app_nil_r, <- !app_assoc. reflexivity.
Qed.
Lemma new_ports_app : forall p a b, (4 <= length a)%nat -> new_ports p (a ++ b) = new_ports p a ++ b.
Proof. intros [[s d]|] a b L; [|reflexivity]. cbn [new_ports]. apply put_app. rewrite app_length, !octets_length. lia. Qed.
Lemma get16_app : forall le off a b, (S (S off) <= length a)%nat -> get16 le off (a ++ b) = get16 le off a.
Proof. intros. unfold get16. rewrite !app_nth1 by lia. reflexivity. Qed.
Lemma firstn_app_le : forall n (a b : list Z), (n <= length a)%nat -> firstn n (a ++ b) = firstn n a.
Proof. intros. rewrite firstn_app. replace (n - length a)%nat with 0%nat by lia. apply app_nil_r. Qed.

Lemma upd46_frags : forall le off n p ports s4 d4 s6 d6 first rest, layout off n -> 0 < p < 256 -> datagram (first ++ rest) -> (n <= length first)%nat ->
  good_ports ports ->
  let out := put off [0; 0] (new_ports ports first) in
  let r := update_csum_4to6 le (get16 le off first) s4 d4 (put off [0; 0] (firstn n first)) s6 d6 (firstn n out) in
  (ok4 s4 d4 p (first ++ rest) <-> ok6 s6 d6 p (put off (st16 le r) out ++ rest)) /\
  same_but off ports (first ++ rest) (put off (st16 le r) out ++ rest).
Proof.
  intros le off n p ports s4 d4 s6 d6 first rest Lay P D L G out r.
  pose proof Lay as (E & L4 & En & Ln). pose proof D as [F Len]. apply Forall_app in F. destruct F as [F1 F2].
  assert (LP : length (new_ports ports first) = length first) by (apply new_ports_length; lia).
  assert (Eo : put off [0; 0] (new_ports ports (first ++ rest)) = out ++ rest).
  { rewrite new_ports_app by lia. apply put_app. cbn [length]. lia. }
  assert (LO : length out = length first) by (subst out; rewrite put_length by (cbn [length]; lia); assumption).
  assert (Er : r = update_csum_4to6 le (get16 le off (first ++ rest)) s4 d4 (put off [0; 0] (firstn n (first ++ rest))) s6 d6 (firstn n (out ++ rest))).
  { rewrite get16_app by lia. rewrite !firstn_app_le by lia. reflexivity. }
  assert (Ur : is_u16 r).
  { rewrite Er. apply update46_spec; [apply get16_u16; apply D|apply put_u8; [apply u8_00|apply firstn_u8; apply D]|apply firstn_u8].
    apply Forall_app. split; [|assumption]. apply put_u8; [apply u8_00|]. apply new_ports_u8. assumption. }
  assert (Eq : put off (st16 le r) out ++ rest = put off (st16 le r) (put off [0; 0] (new_ports ports (first ++ rest)))).
  { rewrite Eo. rewrite put_app by (rewrite st16_length; lia). reflexivity. }
  rewrite Eq. split.
  - apply (upd46_ok le off n p ports s4 d4 s6 d6 (first ++ rest) r Lay P D); [rewrite app_length; lia| |exact Ur].
    rewrite Eo. rewrite <- Er. apply cong_refl.
  - apply (same_but_out le off n ports); try assumption; [rewrite app_length; lia|reflexivity].
Qed.

(** ** ICMP *)
Lemma update3_spec : forall c x1 x2 y1, is_u16 c -> is_u32 x1 -> is_u32 x2 -> is_u32 y1 ->
  let r := csum_fold (csum_add (csum_sub (csum_sub (not32 c) x1) x2) y1) in
  is_u16 r /\ r <> 65535 /\ cong (r + y1) (c + x1 + x2).
Proof.
  intros c x1 x2 y1 Hc H1 H2 H3. cbv zeta.
  destruct (not32_u16_nz c Hc) as (U0 & N0).
  pose proof (csum_sub_u32 _ _ U0 H1) as U1. pose proof (csum_sub_nz _ _ U0 H1 N0) as N1.
  pose proof (csum_sub_u32 _ _ U1 H2) as U2. pose proof (csum_sub_nz _ _ U1 H2 N1) as N2.
  pose proof (csum_add_u32 _ _ U2 H3) as U3. pose proof (csum_add_nz _ _ U2 H3 N2) as N3.
  split; [apply csum_fold_u16; assumption|]. split; [intros K; apply csum_fold_ffff in K; tauto|].
  destruct (not32_cong c) as [k0 K0]. destruct (csum_sub_cong _ _ U0 H1) as [k1 K1]. destruct (csum_sub_cong _ _ U1 H2) as [k2 K2].
  destruct (csum_add_cong _ _ U2 H3) as [k3 K3]. destruct (csum_fold_cong _ U3) as [k5 K5].
  exists (k5 - k3 - k2 - k1 - k0). lia.
Qed.
Lemma hdr_hs : forall le h, (4 <= length h)%nat -> hs le h = get16 le 2 h + hs le (put 2 [0; 0] h).
Proof. intros le h L. rewrite hs_put by (try reflexivity; lia). assert (ld16 le 0 0 = 0) by (destruct le; reflexivity). lia. Qed.

Lemma icmp4_upd : forall le s d n h6 h4, 0 <= n <= 65535 -> Forall is_u8 h6 -> Forall is_u8 h4 -> (4 <= length h6)%nat -> (4 <= length h4)%nat ->
  exists c, update_icmp4_csum le s d n h6 h4 = put 2 (st16 le c) h4 /\ is_u16 c /\ c <> 65535 /\
    cong (hs le (put 2 (st16 le c) h4)) (a6 le s d + (ld16 le 0 58 + hs le (octets 2 n)) + hs le h6).
Proof.
  intros le s d n h6 h4 Hn F6 F4 L6 L4. unfold update_icmp4_csum. cbv zeta.
  destruct (magic6_cong le s d n 58 0 Hn ltac:(lia) u32_0) as (Um & Cm). generalize dependent (csum_ipv6_magic le s d n 58 0). intros m Um [km Cm].
  assert (Fz : forall h, Forall is_u8 h -> Forall is_u8 (put 2 [0; 0] h)) by (intros; apply put_u8; [apply u8_00|assumption]).
  destruct (partial0 le (put 2 [0; 0] h6) (Fz h6 F6)) as (U1 & [k1 K1]). destruct (partial0 le (put 2 [0; 0] h4) (Fz h4 F4)) as (U2 & [k2 K2]).
  destruct (not32_cong m) as [k3 K3].
  destruct (update3_spec (get16 le 2 h6) (not32 m) (csum_partial le (put 2 [0; 0] h6) 0) (csum_partial le (put 2 [0; 0] h4) 0)) as (A & B & [k4 K4]);
    [apply get16_u16; assumption|apply not32_u32, u16_u32, Um|assumption|assumption|].
  generalize dependent (csum_fold (csum_add (csum_sub (csum_sub (not32 (get16 le 2 h6)) (not32 m)) (csum_partial le (put 2 [0; 0] h6) 0)) (csum_partial le (put 2 [0; 0] h4) 0))).
  intros c A B K4. exists c. rewrite put_put by (rewrite st16_length; cbn [length]; lia).
  split; [reflexivity|]. split; [exact A|]. split; [exact B|].
  rewrite hs_put_st by (try reflexivity; lia). rewrite (hdr_hs le h6) by lia. pose proof (hdr_hs le h4 L4) as H4.
  exists (k4 + k3 + k1 - k2 - km). lia.
Qed.
Lemma icmp6_upd : forall le s d n h4 h6, 0 <= n <= 65535 -> Forall is_u8 h6 -> Forall is_u8 h4 -> (4 <= length h6)%nat -> (4 <= length h4)%nat ->
  exists c, update_icmp6_csum le s d n h4 h6 = put 2 (st16 le c) h6 /\ is_u16 c /\
    cong (a6 le s d + (ld16 le 0 58 + hs le (octets 2 n)) + hs le (put 2 (st16 le c) h6)) (hs le h4).
Proof.
  intros le s d n h4 h6 Hn F6 F4 L6 L4. unfold update_icmp6_csum. cbv zeta.
  assert (Fz : forall h, Forall is_u8 h -> Forall is_u8 (put 2 [0; 0] h)) by (intros; apply put_u8; [apply u8_00|assumption]).
  destruct (partial0 le (put 2 [0; 0] h6) (Fz h6 F6)) as (U1 & [k1 K1]). destruct (partial0 le (put 2 [0; 0] h4) (Fz h4 F4)) as (U2 & [k2 K2]).
  destruct (not32_u16_nz (get16 le 2 h4) (get16_u16 le 2 h4 F4)) as (U3 & _). destruct (not32_cong (get16 le 2 h4)) as [k3 K3].
  pose proof (csum_sub_u32 _ _ U3 U2) as U4. destruct (csum_sub_cong _ _ U3 U2) as [k4 K4].
  pose proof (csum_add_u32 _ _ U4 U1) as U5. destruct (csum_add_cong _ _ U4 U1) as [k5 K5].
  generalize dependent (csum_add (csum_sub (not32 (get16 le 2 h4)) (csum_partial le (put 2 [0; 0] h4) 0)) (csum_partial le (put 2 [0; 0] h6) 0)).
  intros t U5 K5.
  destruct (magic6_cong le s d n 58 t Hn ltac:(lia) U5) as (Um & [km Cm]). generalize dependent (csum_ipv6_magic le s d n 58 t). intros c Um Cm.
  exists c. rewrite put_put by (rewrite st16_length; cbn [length]; lia). split; [reflexivity|]. split; [exact Um|].
  rewrite hs_put_st by (try reflexivity; lia). rewrite (hdr_hs le h4) by lia. pose proof (hdr_hs le h6 L6) as H6.
  exists (km - k5 - k4 - k3 + k2 - k1). lia.
Qed.

(** The eight octets of an echo header. *)
Lemma skipn8 : forall msg : list Z, (8 <= length msg)%nat -> exists a b c d e f g h t, msg = a :: b :: c :: d :: e :: f :: g :: h :: t.
Proof.
  intros msg L. do 8 (destruct msg as [|? msg]; [cbn in L; lia|]). repeat eexists.
Qed.
Lemma compute4_ok : forall le msg, Forall is_u8 msg -> (4 <= length msg)%nat ->
  exists c, compute_icmp4_csum le msg = put 2 (st16 le c) msg /\ is_u16 c /\ checks (put 2 (st16 le c) msg).
Proof.
  intros le msg F L. unfold compute_icmp4_csum. cbv zeta.
  assert (Fz : Forall is_u8 (put 2 [0; 0] msg)) by (apply put_u8; [apply u8_00|assumption]).
  destruct (csum_partial_spec le (put 2 [0; 0] msg) 0 Fz u32_0) as (U & [k K] & Z0).
  pose proof (csum_fold_u16 _ U) as UF. destruct (csum_fold_cong _ U) as [k1 K1]. pose proof (csum_fold_ffff _ U) as FF.
  rewrite put_put by (rewrite st16_length; cbn [length]; lia). eexists. split; [reflexivity|]. split; [exact UF|].
  apply (checks_hs le); [apply put_u8; [apply st16_u8; assumption|assumption]|].
  rewrite hs_put_st by (try reflexivity; lia). pose proof (hdr_hs le msg L) as H.
  pose proof (hs_nonneg le _ Fz) as N. unfold is_u16 in UF. split.
  - intros Z1. assert (hs le (put 2 [0; 0] msg) = 0) by lia. assert (csum_partial le (put 2 [0; 0] msg) 0 = 0) by tauto. lia.
  - apply cong0. exists (k1 - k). lia.
Qed.
Lemma compute6_ok : forall le s d msg, datagram msg -> (4 <= length msg)%nat ->
  exists c, compute_icmp6_csum le s d msg = put 2 (st16 le c) msg /\ is_u16 c /\ ok6 s d 58 (put 2 (st16 le c) msg).
Proof.
  intros le s d msg [F Len] L. unfold compute_icmp6_csum. cbv zeta.
  assert (Fz : Forall is_u8 (put 2 [0; 0] msg)) by (apply put_u8; [apply u8_00|assumption]).
  destruct (partial0 le _ Fz) as (U & [k K]). generalize dependent (csum_partial le (put 2 [0; 0] msg) 0). intros t U K.
  destruct (magic6_cong le s d (Z.of_nat (length msg)) 58 t ltac:(lia) ltac:(lia) U) as (Um & [km Cm]).
  generalize dependent (csum_ipv6_magic le s d (Z.of_nat (length msg)) 58 t). intros c Um Cm.
  rewrite put_put by (rewrite st16_length; cbn [length]; lia). exists c. split; [reflexivity|]. split; [exact Um|].
  assert (LP : length (put 2 (st16 le c) msg) = length msg) by (apply put_length; rewrite st16_length; lia).
  apply (ok6_hs le); [lia|split; [apply put_u8; [apply st16_u8; assumption|assumption]|lia]|].
  unfold pl. rewrite LP. rewrite hs_put_st by (try reflexivity; lia). pose proof (hdr_hs le msg L) as H.
  apply cong0. exists (km - k). lia.
Qed.
Lemma validate4_ok : forall le msg, Forall is_u8 msg -> (validate_icmp4_csum le CS_NONE msg = true <-> checks msg).
Proof.
  intros le msg F. unfold validate_icmp4_csum. destruct (csum_partial_spec le msg 0 F u32_0) as (U & C & Z0).
  rewrite Z.eqb_eq, csum_fold_zero by assumption. rewrite (checks_hs le) by assumption. rewrite Z.add_0_l in C.
  rewrite (cong_iff0 _ _ C), Z0. tauto.
Qed.
Lemma validate6_ok : forall le s d msg, datagram msg -> (validate_icmp6_csum le CS_NONE s d msg = true <-> ok6 s d 58 msg).
Proof.
  intros le s d msg D. pose proof D as [F Len]. unfold validate_icmp6_csum. rewrite Z.eqb_eq.
  destruct (partial0 le msg F) as (U & [k K]). generalize dependent (csum_partial le msg 0). intros t U K.
  destruct (ipv6_magic_spec le s d (Z.of_nat (length msg)) 58 t U) as (x & -> & Ux & Cx & Zx).
  rewrite csum_fold_zero by assumption. rewrite (ok6_hs le) by (try assumption; lia).
  rewrite hs4_small in * by lia. rewrite hs4_byte in * by lia. unfold a6, pl.
  assert (C : cong x (hs le (octets 16 s) + hs le (octets 16 d) + (ld16 le 0 58 + hs le (octets 2 (Z.of_nat (length msg)))) + hs le msg))
    by (eapply cong_trans; [exact Cx|]; exists k; lia).
  rewrite (cong_iff0 _ _ C). pose proof (ld16_0_pos le 58 ltac:(lia)) as P. split; [tauto|]. intros H. split; [|exact H].
  intros Z1. apply Zx in Z1. destruct Z1 as (_ & _ & _ & _ & Z1). lia.
Qed.
