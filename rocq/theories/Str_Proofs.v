(** Lemmas on parsing and printing. *)
Require Import Verif.Base Verif.Addr_Model Verif.Str_Model Verif.Str_Spec.
Local Ltac Zify.zify_post_hook ::= Z.div_mod_to_equations.

(** [r] does not start with a digit. *)
Definition stops (r : str) : Prop := match r with c :: _ => isdigit c = false | [] => True end.

Lemma digit_b : forall c, isdigit c = true <-> digit c.
Proof. intros c. unfold isdigit, digit. lia. Qed.
Lemma value_pos : forall s, Forall digit s -> 0 <= value s < 10 ^ Z.of_nat (length s).
Proof.
  intros s H. induction H as [|c t Hc Ht IH]; [cbn; lia|]. cbn [value length]. unfold digit in Hc. rewrite Nat2Z.inj_succ, Z.pow_succ_r by lia. nia.
Qed.
Lemma decimal_pos : forall s n, decimal s n -> 0 <= n.
Proof. intros s n (_ & H & <-). apply value_pos. exact H. Qed.
Lemma scan_app : forall s r n, Forall digit s -> stops r -> scan n (s ++ r) = (n * 10 ^ Z.of_nat (length s) + value s, r).
Proof.
  intros s r n H Hr. revert n. induction H as [|c t Hc Ht IH]; intros n.
  - cbn [app length value]. replace (n * 10 ^ Z.of_nat 0 + 0) with n by (cbn; lia). destruct r as [|c r]; [reflexivity|]. cbn [scan]. cbn in Hr. rewrite Hr. reflexivity.
  - cbn [app scan value length]. rewrite (proj2 (digit_b c) Hc), IH, Nat2Z.inj_succ, Z.pow_succ_r by lia. f_equal. ring.
Qed.
Lemma split_digits : forall s : str, exists d r, s = d ++ r /\ Forall digit d /\ stops r.
Proof.
  intros s. induction s as [|c t (d & r & -> & Hd & Hr)]; [exists [], []; repeat constructor|].
  destruct (isdigit c) eqn:E; [exists (c :: d), r; repeat split; [constructor; [apply digit_b; exact E|exact Hd]|exact Hr]|].
  exists [], (c :: d ++ r). repeat split; [constructor|exact E].
Qed.
Lemma digit_not_space : forall c, digit c -> isspace c = false /\ (c =? 45) = false /\ (c =? 43) = false.
Proof. intros c H. unfold digit in H. unfold isspace. lia. Qed.
Lemma strtoull_decimal : forall s r n, decimal s n -> stops r -> strtoull (s ++ r) = (if n <? ULL then (n, r, false) else (ULL - 1, r, true)).
Proof.
  intros s r n (H1 & H2 & <-) Hr. destruct s as [|c t]; [contradiction|]. pose proof (Forall_inv H2) as Hc.
  destruct (digit_not_space c Hc) as (E1 & E2 & E3). unfold strtoull. cbn [app skip_spaces]. rewrite E1, E2, E3, (proj2 (digit_b c) Hc).
  change (c :: t ++ r) with ((c :: t) ++ r). rewrite scan_app by assumption. rewrite Z.mul_0_l, Z.add_0_l. reflexivity.
Qed.
Lemma strtoull_decimal_nil : forall s n, decimal s n -> strtoull s = (if n <? ULL then (n, [], false) else (ULL - 1, [], true)).
Proof. intros s n H. pose proof (strtoull_decimal s [] n H Logic.I) as P. rewrite app_nil_r in P. exact P. Qed.

Lemma ull_spec : forall s max n r, max < ULL -> (str_to_ull s 0 max = Some (n, r) <-> exists d, s = d ++ r /\ decimal d n /\ stops r /\ n <= max).
Proof.
  intros s max n r Hm. split.
  - unfold str_to_ull, validate_uint. intros H. destruct (split_digits s) as (d & r' & -> & Hd & Hr).
    destruct d as [|c d]; [destruct r' as [|c r']; cbn in *; [discriminate H|rewrite Hr in H; discriminate H]|].
    assert (D : decimal (c :: d) (value (c :: d))) by (split; [discriminate|split; [exact Hd|reflexivity]]).
    rewrite (strtoull_decimal _ _ _ D Hr) in H. pose proof (decimal_pos _ _ D) as P. cbn [app] in H. rewrite (proj2 (digit_b c) (Forall_inv Hd)) in H. cbn [negb] in H. set (v := value (c :: d)) in *.
    destruct (v <? ULL) eqn:E; [|discriminate H]. destruct ((v <? 0) || (max <? v)) eqn:E2; [discriminate H|]. injection H as <- <-. exists (c :: d). repeat (split; [assumption||reflexivity|]). lia.
  - intros (d & -> & D & Hr & Hn). pose proof (decimal_pos _ _ D) as P. unfold str_to_ull. rewrite (strtoull_decimal _ _ _ D Hr). destruct D as (H1 & H2 & _). destruct d as [|c d]; [contradiction|].
    cbn [app validate_uint]. rewrite (proj2 (digit_b c) (Forall_inv H2)). cbn [negb]. replace (n <? ULL) with true by lia. replace ((n <? 0) || (max <? n)) with false by lia. reflexivity.
Qed.
Lemma ull_rejects : forall s max, max < ULL -> (forall n r, ~ exists d, s = d ++ r /\ decimal d n /\ stops r /\ n <= max) -> str_to_ull s 0 max = None.
Proof. intros s max Hm H. destruct (str_to_ull s 0 max) as [[n r]|] eqn:E; [|reflexivity]. exfalso. apply (H n r). apply ull_spec; assumption. Qed.

(** The digits in front of what stops them are determined. *)
Lemma digits_unique : forall d r d' r' : str, Forall digit d -> Forall digit d' -> stops r -> stops r' -> d ++ r = d' ++ r' -> d = d' /\ r = r'.
Proof.
  intros d. induction d as [|c d IH]; intros r [|c' d'] r' H H' Hr Hr' E; cbn [app] in E.
  - auto.
  - subst r. cbn in Hr. apply Forall_inv in H'. apply digit_b in H'. rewrite H' in Hr. discriminate Hr.
  - subst r'. cbn in Hr'. apply Forall_inv in H. apply digit_b in H. rewrite H in Hr'. discriminate Hr'.
  - injection E as <- E. destruct (IH r d' r' (Forall_inv_tail H) (Forall_inv_tail H') Hr Hr' E) as [-> ->]. auto.
Qed.
Lemma decimal_fun : forall s n m, decimal s n -> decimal s m -> n = m.
Proof. intros s n m (_ & _ & <-) (_ & _ & <-). reflexivity. Qed.
Lemma ull_digits : forall s max, max < ULL -> Forall digit s -> str_to_ull s 0 max = match s with [] => None | _ => if value s <=? max then Some (value s, []) else None end.
Proof.
  intros s max Hm H. destruct s as [|c t]; [reflexivity|]. set (s := c :: t) in *. assert (D : decimal s (value s)) by (split; [discriminate|auto]).
  destruct (value s <=? max) eqn:E.
  - apply (ull_spec s max (value s) [] Hm). exists s. rewrite app_nil_r. repeat (split; [reflexivity || assumption||exact Logic.I|]). lia.
  - apply ull_rejects; [exact Hm|]. intros n r (d & Ed & Dd & Hr & Hn). destruct (digits_unique s [] d r H (proj1 (proj2 Dd)) Logic.I Hr) as [<- _]; [rewrite app_nil_r; exact Ed|].
    rewrite (decimal_fun _ _ _ Dd D) in Hn. lia.
Qed.

(** ** Timeouts *)

Lemma stops_colon : forall r, stops (58 :: r). Proof. intros. reflexivity. Qed.
Lemma stops_dot : forall r, stops (46 :: r). Proof. intros. reflexivity. Qed.
(** What the part in front of the dot reads as *)
Lemma clock_read : forall s x, clock s x -> forall tail, match tail with [] => True | c :: _ => c = 46 end -> 1000 * x < 2 ^ 32 ->
  str_to_timeout (s ++ tail) =
  match tail with
  | _ :: t => if (length t <? 3)%nat then None
              else let '(n, tail, errno) := strtoull t in
                   if errno : bool then None
                   else match tail with [] => Some (((1000 * x + n) mod ULL) mod 2 ^ 32) | _ => None end
  | [] => Some ((1000 * x) mod 2 ^ 32)
  end.
Proof.
  assert (U : ULL = 18446744073709551616) by reflexivity.
  intros s x [s' y D|m s' y z D1 D2|h m s' y z w D1 D2 D3] tail Ht Hx.
  - assert (T : stops tail) by (destruct tail; [exact Logic.I|subst; reflexivity]). pose proof (decimal_pos _ _ D).
    unfold str_to_timeout. rewrite (strtoull_decimal _ _ _ D T). replace (y <? ULL) with true by lia.
    destruct tail as [|c t]; [|subst c]; cbv iota beta zeta; rewrite (Z.mod_small (1000 * y) ULL) by lia; reflexivity.
  - assert (T : stops tail) by (destruct tail; [exact Logic.I|subst; reflexivity]). pose proof (decimal_pos _ _ D1). pose proof (decimal_pos _ _ D2).
    unfold str_to_timeout. rewrite <- !app_assoc. cbn [app]. rewrite (strtoull_decimal _ _ _ D1 (stops_colon _)). replace (y <? ULL) with true by lia. cbn [app]. cbv iota beta. 
    rewrite (strtoull_decimal _ _ _ D2 T). replace (z <? ULL) with true by lia. rewrite (Z.mod_small (60 * y + z)) by lia.
    destruct tail as [|c t]; [|subst c]; cbv iota beta zeta; rewrite (Z.mod_small (1000 * (60 * y + z)) ULL) by lia; reflexivity.
  - assert (T : stops tail) by (destruct tail; [exact Logic.I|subst; reflexivity]). pose proof (decimal_pos _ _ D1). pose proof (decimal_pos _ _ D2). pose proof (decimal_pos _ _ D3).
    unfold str_to_timeout. rewrite <- !app_assoc. cbn [app]. rewrite (strtoull_decimal _ _ _ D1 (stops_colon _)). replace (y <? ULL) with true by lia. cbn [app]. cbv iota beta.
    rewrite (strtoull_decimal _ _ _ D2 (stops_colon _)). replace (z <? ULL) with true by lia. cbv iota beta zeta.
    rewrite (strtoull_decimal _ _ _ D3 T). replace (w <? ULL) with true by lia. rewrite (Z.mod_small (60 * y + z)) by lia. rewrite (Z.mod_small (60 * (60 * y + z) + w)) by lia.
    replace (60 * (60 * y + z) + w) with (3600 * y + 60 * z + w) by ring.
    destruct tail as [|c t]; [|subst c]; cbv iota beta zeta; rewrite (Z.mod_small (1000 * (3600 * y + 60 * z + w)) ULL) by lia; reflexivity.
Qed.
Lemma clock_pos : forall s x, clock s x -> 0 <= x.
Proof. intros s x [s' y D|m s' y z D1 D2|h m s' y z w D1 D2 D3]; repeat match goal with H : decimal _ _ |- _ => apply decimal_pos in H end; lia. Qed.
Lemma timeout_read : forall s n, timeout s n -> n < 2 ^ 32 -> str_to_timeout s = Some n.
Proof.
  intros s n [s' x C|s' f x y C D L] Hn.
  - pose proof (clock_pos _ _ C). rewrite <- (app_nil_r s'), (clock_read _ _ C [] Logic.I Hn), Z.mod_small by lia. reflexivity.
  - pose proof (clock_pos _ _ C). pose proof (decimal_pos _ _ D). rewrite (clock_read _ _ C ([46] ++ f) eq_refl ltac:(lia)). cbn [app]. rewrite L. cbn [Nat.ltb Nat.leb].
    rewrite (strtoull_decimal_nil _ _ D). assert (y < 1000). { destruct D as (_ & F & <-). pose proof (value_pos _ F) as V. rewrite L in V. change (10 ^ Z.of_nat 3) with 1000 in V. lia. }
    assert (U : ULL = 18446744073709551616) by reflexivity. replace (y <? ULL) with true by lia. rewrite !Z.mod_small by (try rewrite Z.mod_small; lia). reflexivity.
Qed.
(** A timeout is not empty and made of digits, colons and dots. *)
Lemma timeout_chars : forall s n, timeout s n -> s <> [] /\ Forall (fun c => digit c \/ c = 58 \/ c = 46) s.
Proof.
  assert (D : forall s n, decimal s n -> s <> [] /\ Forall (fun c => digit c \/ c = 58 \/ c = 46) s).
  { intros s n (H1 & H2 & _). split; [exact H1|]. eapply Forall_impl; [|exact H2]. cbn. auto. }
  assert (J : forall a b c, c = 58 \/ c = 46 -> a <> [] /\ Forall (fun c => digit c \/ c = 58 \/ c = 46) a -> b <> [] /\ Forall (fun c => digit c \/ c = 58 \/ c = 46) b -> a ++ [c] ++ b <> [] /\ Forall (fun c => digit c \/ c = 58 \/ c = 46) (a ++ [c] ++ b)).
  { intros a b c Hc [A1 A2] [B1 B2]. split; [destruct a; [contradiction|discriminate]|]. apply Forall_app. split; [exact A2|]. constructor; auto. }
  assert (C : forall s n, clock s n -> s <> [] /\ Forall (fun c => digit c \/ c = 58 \/ c = 46) s).
  { intros s n [s' y D0|m s' y z D1 D2|h m s' y z w D1 D2 D3]; [eauto|apply J; eauto|]. apply J; [auto|eauto|apply J; eauto]. }
  intros s n [s' x H|s' f x y H D0 L]; [eauto|]. apply J; eauto.
Qed.

(** ** Printing *)

Lemma print_digits_spec : forall f n acc, 0 <= n < 10 ^ Z.of_nat f -> (1 <= f)%nat -> exists d, print_digits f n acc = d ++ acc /\ decimal d n /\ (length d <= f)%nat /\ (n < 10 ^ Z.of_nat (length d)).
Proof.
  intros f. induction f as [|f IH]; intros n acc Hn Hf; [lia|]. cbn [print_digits]. assert (G : digit (48 + n mod 10)) by (unfold digit; lia).
  destruct (n / 10 =? 0) eqn:E.
  - exists [48 + n mod 10]. split; [reflexivity|]. split; [|cbn [length]; change (10 ^ Z.of_nat 1) with 10; lia]. split; [discriminate|]. split; [constructor; [exact G|constructor]|]. cbn [value length]. change (10 ^ Z.of_nat 0) with 1. lia.
  - destruct (Nat.eq_dec f 0) as [->|Hf0]; [cbn in Hn; lia|]. rewrite Nat2Z.inj_succ, Z.pow_succ_r in Hn by lia.
    destruct (IH (n / 10) ((48 + n mod 10) :: acc)) as (d & Ed & (D1 & D2 & D3) & Hl & Hd); [nia|lia|]. exists (d ++ [48 + n mod 10]). rewrite <- app_assoc. split; [exact Ed|].
    assert (V : forall d x, value (d ++ [x]) = 10 * value d + (x - 48)).
    { clear. intros d x. induction d as [|c d IH]; cbn [app value length]; [change (Z.of_nat 0) with 0; lia|]. rewrite IH, app_length, Nat.add_1_r, Nat2Z.inj_succ, Z.pow_succ_r by lia. ring. }
    split; [|rewrite app_length, Nat.add_1_r, Nat2Z.inj_succ, Z.pow_succ_r by lia; split; nia]. split; [destruct d; [contradiction|discriminate]|]. split; [apply Forall_app; split; [exact D2|constructor; [exact G|constructor]]|]. rewrite V, D3. lia.
Qed.
Lemma print_u_spec : forall n, 0 <= n < 2 ^ 64 -> decimal (print_u n) n /\ (length (print_u n) <= 20)%nat /\ n < 10 ^ Z.of_nat (length (print_u n)).
Proof.
  intros n Hn. unfold print_u. destruct (print_digits_spec 20 n []) as (d & -> & H); [split; [lia|]; eapply Z.lt_le_trans; [apply Hn|]; vm_compute; discriminate|lia|]. rewrite app_nil_r. tauto.
Qed.
(** As many digits as are needed *)
Lemma print_digits_length : forall f k n acc, 0 <= n < 10 ^ Z.of_nat k -> (1 <= k)%nat -> (length (print_digits f n acc) <= k + length acc)%nat.
Proof.
  intros f. induction f as [|f IH]; intros k n acc Hn Hk; cbn [print_digits]; [lia|]. destruct (n / 10 =? 0) eqn:E; [cbn [length]; lia|].
  destruct k as [|[|k]]; [lia|cbn in Hn; lia|]. rewrite Nat2Z.inj_succ, Z.pow_succ_r in Hn by lia. specialize (IH (S k) (n / 10) ((48 + n mod 10) :: acc)). cbn [length] in IH. eapply Nat.le_trans; [apply IH; [nia|lia]|lia].
Qed.
Lemma print_u_length : forall k n, 0 <= n < 10 ^ Z.of_nat k -> (1 <= k)%nat -> (length (print_u n) <= k)%nat.
Proof. intros k n Hn Hk. unfold print_u. pose proof (print_digits_length 20 k n [] Hn Hk) as L. cbn [length] in L. lia. Qed.
Lemma print_0u_spec : forall w n, 0 <= n < 10 ^ Z.of_nat w -> (1 <= w)%nat -> 10 ^ Z.of_nat w <= 2 ^ 64 -> decimal (print_0u w n) n /\ length (print_0u w n) = w.
Proof.
  intros w n Hn Hw Hp. destruct (print_u_spec n) as ((D1 & D2 & D3) & _); [lia|]. pose proof (print_u_length w n Hn Hw) as L.
  unfold print_0u. split; [|rewrite app_length, repeat_length; lia]. split; [destruct (repeat 48 _); [exact D1|discriminate]|].
  split; [apply Forall_app; split; [|exact D2]; apply Forall_forall; intros x Hx; apply repeat_spec in Hx; subst; unfold digit; lia|].
  generalize (w - length (print_u n))%nat. intros k. induction k as [|k IH]; [exact D3|]. cbn [repeat app value]. rewrite IH. lia.
Qed.
Lemma snprintf_fits : forall size s, (length s < size)%nat -> snprintf size s = s.
Proof. intros size s H. unfold snprintf. apply firstn_all2. lia. Qed.
(** What timeout2str() writes *)
Lemma timeout2str_spec : forall n, 0 <= n < 2 ^ 32 -> timeout (timeout2str n) n /\ (length (timeout2str n) < TIMEOUT_BUFLEN)%nat.
Proof.
  intros n Hn. unfold timeout2str. set (h := n / 3600000). rewrite (Z.mod_small (n - h * 3600000)) by lia. set (n1 := n - h * 3600000). set (m := n1 / 60000).
  assert (0 <= h <= 1193) by lia. assert (0 <= n1 < 3600000) by lia. rewrite (Z.mod_small (n1 - m * 60000)) by lia. set (n2 := n1 - m * 60000). set (s := n2 / 1000). assert (0 <= m < 60) by lia. assert (0 <= n2 < 60000) by lia.
  rewrite (Z.mod_small (n2 - s * 1000)) by lia. set (n3 := n2 - s * 1000). assert (0 <= s < 60) by lia. assert (0 <= n3 < 1000) by lia.
  destruct (print_u_spec h) as (Dh & _); [lia|]. destruct (print_0u_spec 2 m) as (Dm & Lm); [cbn; lia|lia|cbn; lia|]. destruct (print_0u_spec 2 s) as (Ds & Ls); [cbn; lia|lia|cbn; lia|]. destruct (print_0u_spec 3 n3) as (D3 & L3); [cbn; lia|lia|cbn; lia|].
  assert (Lh : (length (print_u h) <= 4)%nat) by (apply print_u_length; [cbn; lia|lia]).
  set (first := print_u h ++ [58] ++ print_0u 2 m ++ [58] ++ print_0u 2 s). assert (Lf : (length first <= 10)%nat) by (unfold first; rewrite !app_length, Lm, Ls; cbn [length]; lia).
  assert (C : clock first (3600 * h + 60 * m + s)) by (apply clock_hms; assumption). unfold TIMEOUT_BUFLEN in *. rewrite (snprintf_fits 32 first) by lia. destruct (n3 =? 0) eqn:E.
  - split; [|lia]. replace n with (1000 * (3600 * h + 60 * m + s)) by lia. apply timeout_s. exact C.
  - rewrite snprintf_fits by (rewrite app_length, L3; cbn [length]; lia). split; [|rewrite !app_length, L3; cbn [length]; lia]. replace n with (1000 * (3600 * h + 60 * m + s) + n3) by lia. apply timeout_ms; assumption.
Qed.

(** ** Tokens *)

Lemma tokens_one : forall d s cur, ~ In d s -> tokens d s cur = match rev cur ++ s with [] => [] | t => [t] end.
Proof.
  intros d s. induction s as [|c s IH]; intros cur H; cbn [tokens].
  - rewrite app_nil_r. destruct cur as [|x cur]; [reflexivity|]. destruct (rev (x :: cur)) eqn:E; [|reflexivity]. apply (f_equal (@length Z)) in E. rewrite rev_length in E. discriminate E.
  - replace (c =? d) with false by (cbn in H; lia). rewrite IH by (cbn in H; tauto). cbn [rev]. rewrite <- app_assoc. reflexivity.
Qed.
Lemma tokens_app : forall d s t cur, ~ In d s -> rev cur ++ s <> [] -> tokens d (s ++ [d] ++ t) cur = (rev cur ++ s) :: tokens d t [].
Proof.
  intros d s. induction s as [|c s IH]; intros t cur H Hn; cbn [app tokens].
  - rewrite Z.eqb_refl. rewrite app_nil_r in *. destruct cur; [contradiction Hn; reflexivity|reflexivity].
  - replace (c =? d) with false by (cbn in H; lia). change (s ++ d :: t) with (s ++ [d] ++ t). rewrite IH; [|cbn in H; tauto|destruct cur; cbn; [discriminate|destruct (rev cur ++ [z]); discriminate]]. cbn [rev]. rewrite <- app_assoc. reflexivity.
Qed.
Lemma strtok_one : forall d s, ~ In d s -> s <> [] -> strtok d s = [s].
Proof. intros d s H Hn. unfold strtok. rewrite tokens_one by exact H. destruct s; [contradiction|reflexivity]. Qed.
Lemma strtok_app : forall d s t, ~ In d s -> s <> [] -> strtok d (s ++ [d] ++ t) = s :: strtok d t.
Proof. intros d s t H Hn. unfold strtok. rewrite tokens_app by auto. reflexivity. Qed.
Lemma digits_no : forall d s, ~ digit d -> Forall digit s -> ~ In d s.
Proof. intros d s H F Hi. rewrite Forall_forall in F. auto. Qed.
Lemma u8_decimal : forall s n max, decimal s n -> n <= max -> max < 256 -> str_to_u8 s max = Some n.
Proof.
  intros s n max D Hn Hm. pose proof (decimal_pos _ _ D). unfold str_to_u8. rewrite (proj2 (ull_spec s max n [] ltac:(unfold ULL; lia))); [rewrite Z.mod_small by lia; reflexivity|]. exists s. rewrite app_nil_r. repeat (split; [auto; exact Logic.I|]). exact Hn.
Qed.
Lemma u16_decimal : forall s n, decimal s n -> n <= 65535 -> str_to_u16 s = Some n.
Proof.
  intros s n D Hn. pose proof (decimal_pos _ _ D). unfold str_to_u16. rewrite (proj2 (ull_spec s 65535 n [] ltac:(reflexivity))); [rewrite Z.mod_small by lia; reflexivity|]. exists s. rewrite app_nil_r. repeat (split; [auto; exact Logic.I|]). exact Hn.
Qed.
Lemma u32_decimal : forall s n, decimal s n -> n <= 4294967295 -> str_to_u32 s = Some n.
Proof.
  intros s n D Hn. pose proof (decimal_pos _ _ D). unfold str_to_u32. rewrite (proj2 (ull_spec s 4294967295 n [] ltac:(reflexivity))); [rewrite Z.mod_small by lia; reflexivity|]. exists s. rewrite app_nil_r. repeat (split; [auto; exact Logic.I|]). exact Hn.
Qed.
Lemma plateaus_read : forall s l, numbers s l -> strtok 44 s <> [] /\ length (strtok 44 s) = length l /\ all_u16 (strtok 44 s) = Some l.
Proof.
  intros s l H. induction H as [s n D Hn|s n t l D Hn H (I1 & I2 & I3)].
  - rewrite strtok_one by (try apply (digits_no 44); try apply D; unfold digit; lia). cbn [all_u16]. rewrite (u16_decimal _ _ D Hn). split; [discriminate|auto].
  - rewrite strtok_app by (try apply (digits_no 44); try apply D; unfold digit; lia). cbn [all_u16 length]. rewrite (u16_decimal _ _ D Hn), I2, I3. split; [discriminate|auto].
Qed.
Lemma print_list_spec : forall l, l <> [] -> Forall is_u16 l -> numbers (print_list l) l.
Proof.
  intros l. induction l as [|n l IH]; [contradiction|]. intros _ H. pose proof (Forall_inv H) as Hn. unfold is_u16 in Hn. destruct (print_u_spec n) as (D & _); [lia|].
  destruct l as [|m l]; [apply numbers_one; [exact D|lia]|]. cbn [print_list]. apply numbers_more; [exact D|lia|]. apply IH; [discriminate|exact (Forall_inv_tail H)].
Qed.
