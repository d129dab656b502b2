(** Texts whose escapes are complete are parsed without leaving the buffers,
    whether they are JSON or not. *)
Require Import Verif.Base Verif.Json_Model Verif.Json_Spec Verif.Json_Proofs.

Definition good (p : list Z) : Prop := exists t, p = t ++ [0] /\ escapes_ok t /\ short_exponents t.

Lemma short_tail : forall c t, short_exponents (c :: t) -> short_exponents t.
Proof. intros c t H a e sg d r E. apply (H (c :: a) e sg d r). rewrite E. reflexivity. Qed.

Lemma good_cons : forall p, good p -> exists c q, p = c :: q.
Proof. intros p (t & -> & _). destruct t; cbn; eauto. Qed.

Lemma good_rd : forall p, good p -> exists c, rd p = POk c.
Proof. intros p H. destruct (good_cons p H) as (c & q & ->). exists c. reflexivity. Qed.

Lemma good_tl : forall c q, good (c :: q) -> c <> 0 -> c <> 92 -> good q.
Proof.
  intros c q (t & E & He & Hs) H0 H92. destruct t as [|x t]; cbn in E; [congruence|]. injection E as -> ->.
  exists t. split; [reflexivity|]. split; [inversion He; subst; congruence|]. eapply short_tail. exact Hs.
Qed.

(** What a step may do: fail, or go on from a good place not before this one. *)
Definition fine {A} (n : nat) (r : pres (A * list Z)) : Prop :=
  match r with POk x => good (snd x) /\ (length (snd x) <= n)%nat | PFail => True | _ => False end.

Lemma skip_fine : forall p, good p -> exists q, skip p = POk q /\ good q /\ (length q <= length p)%nat.
Proof.
  induction p as [|c p IH]; intros H; [destruct (good_cons _ H) as (? & ? & E); discriminate E|]. cbn [skip].
  destruct (negb (c =? 0) && (c <=? 32)) eqn:E.
  - destruct (IH (good_tl c p H ltac:(lia) ltac:(lia))) as (q & -> & G & L). exists q. cbn [length]. auto with arith.
  - exists (c :: p). auto.
Qed.

Lemma mantissa_fine : forall p n k, good p ->
  exists n' k' q, mantissa p n k = POk (n', k', q) /\ good q /\ (length q <= length p)%nat.
Proof.
  induction p as [|c p IH]; intros n k H; [destruct (good_cons _ H) as (? & ? & E); discriminate E|]. cbn [mantissa].
  destruct (is_digit c) eqn:E.
  - unfold is_digit in E. destruct (IH (10 * n + (c - 48)) (k + 1) (good_tl c p H ltac:(lia) ltac:(lia))) as (n' & k' & q & -> & G & L).
    exists n', k', q. cbn [length]. auto with arith.
  - exists n, k, (c :: p). auto.
Qed.

Lemma exponent_fine : forall t n k, escapes_ok t -> short_exponents t -> 0 <= n < 10 ^ Z.of_nat k -> (k <= 9)%nat ->
  (forall d r, t = d ++ r -> Forall digit d -> (length d + k <= 9)%nat) ->
  exists x q, exponent (t ++ [0]) n = POk (x, q) /\ good q /\ (length q <= S (length t))%nat.
Proof.
  induction t as [|c t IH]; intros n k He Hs Hn Hk Hd.
  - exists n, [0]. cbn. split; [reflexivity|]. split; [|lia]. exists []. repeat split; auto.
  - cbn [app exponent]. destruct (is_digit c) eqn:E.
    + assert (Hc : digit c) by (unfold is_digit in E; unfold digit; lia).
      pose proof (Hd [c] t eq_refl ltac:(constructor; [exact Hc|constructor])) as H1. cbn [length] in H1.
      assert (P : 10 ^ Z.of_nat (S k) = 10 * 10 ^ Z.of_nat k) by (rewrite Nat2Z.inj_succ, Z.pow_succ_r by lia; reflexivity).
      assert (B : 10 ^ Z.of_nat (S k) <= 10 ^ 9) by (apply Z.pow_le_mono_r; lia).
      unfold digit in Hc. change (10 ^ 9) with 1000000000 in B.
      replace (2 ^ 31 <=? 10 * n + (c - 48)) with false by (change (2 ^ 31) with 2147483648; lia).
      destruct (IH (10 * n + (c - 48)) (S k)) as (x & q & -> & G & L).
      * inversion He; subst; [assumption|lia|lia].
      * eapply short_tail. exact Hs.
      * lia.
      * lia.
      * intros d r -> D. specialize (Hd (c :: d) r eq_refl ltac:(constructor; [unfold digit; exact Hc|exact D])). cbn [length] in Hd. lia.
      * exists x, q. cbn [length]. auto with arith.
    + exists n, (c :: t ++ [0]). split; [reflexivity|]. split; [|cbn [length]; rewrite app_length; cbn [length]; lia]. exists (c :: t). auto.
Qed.

Lemma int_fine : forall p, good p -> fine (length p) (int_part p).
Proof.
  intros p H. unfold int_part. destruct (good_cons p H) as (c & q & ->). cbn [rd pbind].
  assert (G : exists p', (if c =? 48 then tl (c :: q) else c :: q) = p' /\ good p' /\ (length p' <= length (c :: q))%nat).
  { destruct (c =? 48) eqn:E; eexists; (split; [reflexivity|]); cbn [tl]; [|auto].
    split; [apply (good_tl c); [exact H|lia|lia]|cbn; lia]. }
  destruct G as (p' & -> & G & L). destruct (good_rd p' G) as (x & ->). cbn [pbind].
  destruct ((49 <=? x) && (x <=? 57)); [|cbn; auto].
  destruct (mantissa_fine p' 0 0 G) as (n' & k' & q' & -> & G' & L'). cbn [pbind fst snd fine]. split; [exact G'|]. cbn [snd]. lia.
Qed.

Lemma frac_fine : forall p n, good p -> fine (length p) (frac_part p n).
Proof.
  intros p n H. unfold frac_part. destruct (good_cons p H) as (c & q & ->). cbn [rd pbind].
  destruct (c =? 46) eqn:E; [|cbn; auto]. cbn [tl].
  assert (G : good q) by (apply (good_tl c); [exact H|lia|lia]). destruct (good_rd q G) as (x & ->). cbn [pbind].
  destruct (is_digit x); [|cbn; auto].
  destruct (mantissa_fine q n 0 G) as (n' & k' & q' & -> & G' & L'). cbn. split; [exact G'|]. lia.
Qed.

Lemma exp_fine : forall p, good p -> fine (length p) (exp_part p).
Proof.
  intros p H. unfold exp_part. destruct (good_cons p H) as (c & q & ->). cbn [rd pbind].
  destruct ((c =? 101) || (c =? 69)) eqn:E; [|cbn; auto]. cbn [tl].
  destruct H as (t & Et & He & Hs). destruct t as [|x t]; cbn in Et; [injection Et as -> ->; discriminate E|].
  injection Et as <- ->.
  assert (He' : escapes_ok t) by (inversion He; subst; [assumption|lia|lia]).
  pose proof (short_tail _ _ Hs) as Hs'.
  assert (Hrd : exists s, rd (t ++ [0]) = POk s) by (destruct t; cbn; eauto). destruct Hrd as (s & Es). rewrite Es. cbn [pbind].
  destruct ((s =? 43) || (s =? 45)) eqn:Eg.
  - destruct t as [|y t]; cbn in Es; [injection Es as <-; discriminate Eg|]. injection Es as ->. cbn [app tl].
    destruct (exponent_fine t 0 0) as (v & q & -> & G & L).
    + inversion He'; subst; [assumption|lia|lia].
    + eapply short_tail. exact Hs'.
    + cbn. lia.
    + lia.
    + intros d r -> D. rewrite Nat.add_0_r. apply (Hs [] c [s] d r); [reflexivity|lia| |exact D].
      assert (C : s = 43 \/ s = 45) by lia. destruct C as [->| ->]; auto.
    + cbn [pbind fst snd fine]. split; [exact G|]. cbn [length] in *. rewrite ?app_length. cbn [length]. lia.
  - destruct (exponent_fine t 0 0) as (v & q & -> & G & L); [exact He'|exact Hs'|cbn; lia|lia| |].
    + intros d r -> D. rewrite Nat.add_0_r. apply (Hs [] c [] d r); [reflexivity|lia|auto|exact D].
    + cbn [pbind fst snd fine]. split; [exact G|]. cbn [length] in *. rewrite ?app_length. cbn [length]. lia.
Qed.

Lemma fine_bind : forall A B n (r : pres (A * list Z)) (k : A * list Z -> pres (B * list Z)),
  fine n r -> (forall x, r = POk x -> good (snd x) -> (length (snd x) <= n)%nat -> fine n (k x)) -> fine n (pbind r k).
Proof. intros A B n r k H K. destruct r as [x| |b|]; cbn in *; [apply K; [reflexivity|apply H|apply H]|exact I|exact H|exact H]. Qed.

Lemma fine_le : forall A n m (r : pres (A * list Z)), fine n r -> (n <= m)%nat -> fine m r.
Proof. intros A n m [x| |b|] H L; cbn in *; auto. split; [apply H|]. destruct H. lia. Qed.

Lemma number_fine : forall p, good p -> fine (length p) (parse_number p).
Proof.
  intros p H. unfold parse_number. destruct (good_cons p H) as (c & q & ->). cbn [rd pbind].
  assert (G : exists p', (if c =? 45 then tl (c :: q) else c :: q) = p' /\ good p' /\ (length p' <= length (c :: q))%nat).
  { destruct (c =? 45) eqn:E; eexists; (split; [reflexivity|]); cbn [tl]; [|auto].
    split; [apply (good_tl c); [exact H|lia|lia]|cbn; lia]. }
  destruct G as (p' & -> & G & L).
  apply fine_bind; [eapply fine_le; [apply int_fine; exact G|exact L]|]. intros [n p1] _ G1 L1. cbn [fst snd] in *.
  apply fine_bind; [eapply fine_le; [apply frac_fine; exact G1|exact L1]|]. intros [[n2 sc] p2] _ G2 L2. cbn [fst snd] in *.
  apply fine_bind; [eapply fine_le; [apply exp_fine; exact G2|exact L2]|]. intros [e p3] _ G3 L3. cbn [fst snd fine] in *. auto.
Qed.

(** ** Strings *)
Lemma rd_app0 : forall t, exists c, rd (t ++ [0]) = POk c.
Proof. intros [|c t]; cbn; eauto. Qed.

(** The case of \u: what is written is not longer than what [str_len] counts. *)
Lemma unicode_fine : forall a b c d x s, hex4 a b c d x -> escapes_ok s ->
  exists bs p, unicode (117 :: a :: b :: c :: d :: s ++ [0]) = POk (bs, p) /\
    ((length bs <= 3)%nat /\ p = d :: s ++ [0] \/
     exists a' b' c' d' x' s', s = 92 :: 117 :: a' :: b' :: c' :: d' :: s' /\ hex4 a' b' c' d' x' /\ escapes_ok s' /\
       (length bs <= 4)%nat /\ p = d' :: s' ++ [0]).
Proof.
  intros a b c d x s H Hs. destruct (hex4_ok a b c d x (s ++ [0]) H) as (E & Hr). unfold unicode. cbn [tl]. rewrite E. cbn [pbind skipn].
  destruct (((0xDC00 <=? x) && (x <=? 0xDFFF)) || (x =? 0)) eqn:E1; [eexists _, _; split; [reflexivity|left; cbn; auto with arith]|].
  destruct ((0xD800 <=? x) && (x <=? 0xDBFF)) eqn:E2.
  - destruct (rd_app0 s) as (y & Ey). rewrite Ey. cbn [pbind].
    destruct (negb (y =? 92)) eqn:E3; [eexists _, _; split; [reflexivity|left; cbn; auto with arith]|].
    destruct s as [|y0 s]; cbn in Ey; [injection Ey as <-; discriminate E3|]. injection Ey as ->.
    inversion Hs as [|? ? N _|z s0 N0 N Hs0|a' b' c' d' x' s0 H' Hs0]; subst; [lia| |]; cbn [app rd pbind].
    + replace (z =? 117) with false by lia. cbn [negb]. eexists _, _; split; [reflexivity|left; cbn; auto with arith].
    + cbn [Z.eqb Pos.eqb negb]. destruct (hex4_ok a' b' c' d' x' (s0 ++ [0]) H') as (E' & _). rewrite E'. cbn [pbind].
      destruct ((x' <? 0xDC00) || (0xDFFF <? x')); (eexists _, _; split; [reflexivity|right; exists a', b', c', d', x', s0;
        repeat (split; [solve [reflexivity|assumption]|]); split; [cbn; auto with arith|reflexivity]]).
      apply encode_length.
  - eexists _, _; split; [reflexivity|left]. split; [apply encode_length; lia|reflexivity].
Qed.

Lemma copy_fine : forall m t, (length t <= m)%nat -> escapes_ok t -> short_exponents t ->
  exists n, str_len (t ++ [0]) = POk n /\
    forall f cap out, (length t < f)%nat -> (length out + n <= cap)%nat ->
      exists out' q, str_copy f cap (t ++ [0]) out = POk (out', q) /\ (length out' <= length out + n)%nat /\ good q /\
        (length q <= S (length t))%nat /\ (rd q = POk 34 \/ rd q = POk 0).
Proof.
  induction m as [|m IH]; intros t Hm He Hs.
  - destruct t; [|cbn in Hm; lia]. exists O. split; [reflexivity|]. intros [|f] cap out Hf Hc; [lia|]. exists out, [0]. cbn.
    split; [reflexivity|]. split; [lia|]. split; [exists []; repeat split; auto|]. auto.
  - destruct t as [|c t].
    + exists O. split; [reflexivity|]. intros [|f] cap out Hf Hc; [lia|]. exists out, [0]. cbn.
      split; [reflexivity|]. split; [lia|]. split; [exists []; repeat split; auto|]. auto.
    + cbn [length] in Hm. destruct ((c =? 34) || (c =? 0)) eqn:Eq.
      * exists O. cbn [app str_len]. rewrite Eq. split; [reflexivity|]. intros [|f] cap out Hf Hc; [lia|]. exists out, (c :: t ++ [0]).
        cbn [str_copy rd pbind]. rewrite Eq. split; [reflexivity|]. split; [lia|]. split; [exists (c :: t); auto|]. split; [cbn [length]; rewrite app_length; cbn [length]; lia|].
        assert (C : c = 34 \/ c = 0) by (clear - Eq; lia). destruct C as [->| ->]; auto.
      * assert (Hcc : c <> 34 /\ c <> 0) by (clear - Eq; lia).
        inversion He as [|c0 s0 N He0|z s0 N0 N He0|a b c0 d x s0 H He0]; subst.
        -- destruct (IH t ltac:(lia) He0 (short_tail _ _ Hs)) as (n & En & K). exists (S n). cbn [app]. rewrite str_len_plain by tauto.
           rewrite En. split; [reflexivity|]. intros [|f] cap out Hf Hc; [lia|]. cbn [length] in Hf.
           cbn [str_copy rd pbind tl]. rewrite Eq. replace (c =? 92) with false by (clear - N; lia). cbn [negb].
           rewrite write_ok by (cbn [length]; lia). cbn [pbind].
           destruct (K f cap (out ++ [c]) ltac:(lia)) as (out' & q & -> & L & G & Lq & Q); [rewrite app_length; cbn [length]; lia|].
           exists out', q. rewrite app_length in L. cbn [length] in *. repeat (split; [first [reflexivity|lia|assumption]|]). exact Q.
        -- cbn [length] in Hm. destruct (IH s0 ltac:(lia) He0 (short_tail _ _ (short_tail _ _ Hs))) as (n & En & K). exists (S n).
           cbn [app]. rewrite str_len_esc, En. split; [reflexivity|]. intros [|f] cap out Hf Hc; [lia|]. cbn [length] in Hf.
           cbn [str_copy rd pbind tl]. cbn [Z.eqb Pos.eqb orb negb].
           set (r := if z =? 98 then _ else _).
           assert (Er : exists y, r = POk ([y], z :: s0 ++ [0])).
           { unfold r. replace (z =? 117) with false by (clear - N; lia).
             destruct (z =? 98); [eauto|]. destruct (z =? 102); [eauto|]. destruct (z =? 110); [eauto|]. destruct (z =? 114); [eauto|].
             destruct (z =? 116); eauto. }
           destruct Er as (y & ->). cbn [pbind fst snd tl]. rewrite write_ok by (cbn [length]; lia). cbn [pbind].
           destruct (K f cap (out ++ [y]) ltac:(lia)) as (out' & q & -> & L & G & Lq & Q); [rewrite app_length; cbn [length]; lia|].
           exists out', q. rewrite app_length in L. cbn [length] in *. repeat (split; [first [reflexivity|lia|assumption]|]). exact Q.
        -- cbn [length] in Hm.
           assert (Hs0 : short_exponents s0) by (do 6 (apply short_tail in Hs); exact Hs).
           destruct (unicode_fine a b c0 d x s0 H He0) as (bs & p & Eu & D).
           destruct D as [(Lb & ->)|(a' & b' & c' & d' & x' & s' & -> & H' & He' & Lb & ->)].
           ++ destruct (IH s0 ltac:(lia) He0 Hs0) as (n & En & K). exists (S (S (S (S (S n))))).
              cbn [app]. rewrite str_len_esc, (str_len_hex4 _ _ _ _ _ _ H), En. split; [reflexivity|].
              intros [|f] cap out Hf Hc; [lia|]. cbn [length] in Hf.
              cbn [str_copy rd pbind tl]. cbn [Z.eqb Pos.eqb orb negb]. rewrite Eu. cbn [pbind fst snd tl].
              rewrite write_ok by lia. cbn [pbind].
              destruct (K f cap (out ++ bs) ltac:(lia)) as (out' & q & -> & L & G & Lq & Q); [rewrite app_length; lia|].
              exists out', q. rewrite app_length in L. cbn [length] in *. repeat (split; [first [reflexivity|lia|assumption]|]). exact Q.
           ++ cbn [length] in Hm. assert (Hs' : short_exponents s') by (do 6 (apply short_tail in Hs0); exact Hs0).
              destruct (IH s' ltac:(lia) He' Hs') as (n & En & K). exists (10 + n)%nat.
              cbn [app]. rewrite str_len_esc, (str_len_hex4 _ _ _ _ _ _ H), str_len_esc, (str_len_hex4 _ _ _ _ _ _ H'), En. split; [reflexivity|].
              intros [|f] cap out Hf Hc; [lia|]. cbn [length] in Hf. cbn [app] in Eu.
              cbn [str_copy rd pbind tl]. cbn [Z.eqb Pos.eqb orb negb]. rewrite Eu. cbn [pbind fst snd tl].
              rewrite write_ok by lia. cbn [pbind].
              destruct (K f cap (out ++ bs) ltac:(lia)) as (out' & q & -> & L & G & Lq & Q); [rewrite app_length; lia|].
              exists out', q. rewrite app_length in L. cbn [length] in *. repeat (split; [first [reflexivity|lia|assumption]|]). exact Q.
Qed.

Lemma string_fine : forall p, good p -> fine (length p) (parse_string p) /\ (forall x, parse_string p = POk x -> (length (snd x) < length p)%nat).
Proof.
  intros p H. unfold parse_string. destruct (good_cons p H) as (c & q & ->). cbn [rd pbind].
  destruct (c =? 34) eqn:E; cbn [negb tl]; [|split; [exact I|discriminate]].
  pose proof (good_tl c q H ltac:(lia) ltac:(lia)) as (t & -> & He & Hs).
  destruct (copy_fine (length t) t ltac:(lia) He Hs) as (n & -> & K). cbn [pbind].
  destruct (K (S (length (t ++ [0]))) (S n) []) as (out & q & -> & L & G & Lq & Q); [rewrite app_length; lia|cbn; lia|].
  cbn [pbind length] in *. rewrite app_length in *. cbn [length] in *. rewrite write_ok by (cbn; lia). cbn [pbind].
  destruct Q as [Q|Q]; rewrite Q; cbn [pbind Z.eqb Pos.eqb].
  - destruct q as [|y q]; [discriminate Q|]. injection Q as ->. cbn [tl fine snd length] in *. pose proof (good_tl _ _ G ltac:(lia) ltac:(lia)).
    split; [split; [assumption|lia]|]. intros x [= <-]. cbn [snd]. lia.
  - cbn [fine snd]. split; [split; [exact G|lia]|]. intros x [= <-]. cbn [snd]. lia.
Qed.

Lemma starts_fine : forall w p, good p -> Forall (fun c => c <> 0 /\ c <> 92) w ->
  starts w p = POk false \/ (starts w p = POk true /\ good (skipn (length w) p) /\ (length (skipn (length w) p) + length w = length p)%nat).
Proof.
  induction w as [|x w IH]; intros p H Hw; [right; cbn; auto with arith|].
  destruct (good_cons p H) as (c & q & ->). cbn [starts length skipn]. inversion Hw; subst.
  destruct (c =? x) eqn:E; [|left; reflexivity]. destruct (IH q) as [F|(T & G & L)]; auto.
  - apply (good_tl c); [exact H|lia|lia].
  - right. split; [exact T|]. split; [exact G|]. lia.
Qed.

Lemma word_fine : forall w p (v : json) (k : pres (json * list Z)), good p -> Forall (fun c => c <> 0 /\ c <> 92) w ->
  fine (length p) k -> fine (length p) (let? b := starts w p in if b : bool then POk (v, skipn (length w) p) else k).
Proof.
  intros w p v k H Hw K. destruct (starts_fine w p H Hw) as [-> |(-> & G & L)]; cbn [pbind]; [exact K|].
  cbn [fine snd]. split; [exact G|]. lia.
Qed.

Lemma values_fine : forall f,
  (forall p, good p -> (2 * length p < f)%nat -> fine (length p) (parse_value f p)) /\
  (forall p, good p -> (2 * length p + 1 < f)%nat -> fine (length p) (items f p)) /\
  (forall p, good p -> (2 * length p + 1 < f)%nat -> fine (length p) (members f p)).
Proof.
  induction f as [|f (IHv & IHi & IHm)]; [split; [|split]; intros p _ Hf; lia|]. split; [|split].
  - intros p H Hf. cbn [parse_value].
    apply (word_fine w_null p JNull); [exact H|unfold w_null; repeat constructor; lia|].
    apply (word_fine w_false p JFalse); [exact H|unfold w_false; repeat constructor; lia|].
    apply (word_fine w_true p JTrue); [exact H|unfold w_true; repeat constructor; lia|].
    pose proof (string_fine p H) as (S1 & _). pose proof (number_fine p H) as N1.
    destruct (good_cons p H) as (c & q & ->). cbn [rd pbind]. cbn [length] in Hf.
    destruct (c =? 34) eqn:E1. { apply fine_bind; [exact S1|]. intros x _ G L. cbn. auto. }
    destruct ((c =? 45) || is_digit c); [exact N1|].
    destruct (c =? 91) eqn:E2.
    + cbn [tl]. destruct (skip_fine q) as (q' & -> & G & L); [apply (good_tl c); [exact H|lia|lia]|]. cbn [pbind].
      destruct (good_cons q' G) as (c' & q2 & ->). cbn [rd pbind]. destruct (c' =? 93) eqn:E3.
      * cbn [fine snd tl]. cbn [length] in *. split; [apply (good_tl c'); [exact G|lia|lia]|lia].
      * apply fine_bind; [eapply fine_le; [apply IHi; [exact G|cbn [length] in *; lia]|cbn [length] in *; lia]|]. intros x _ G' L'. cbn. auto.
    + destruct (c =? 123) eqn:E4; [|exact I].
      cbn [tl]. destruct (skip_fine q) as (q' & -> & G & L); [apply (good_tl c); [exact H|lia|lia]|]. cbn [pbind].
      destruct (good_cons q' G) as (c' & q2 & ->). cbn [rd pbind]. destruct (c' =? 125) eqn:E3.
      * cbn [fine snd tl]. cbn [length] in *. split; [apply (good_tl c'); [exact G|lia|lia]|lia].
      * apply fine_bind; [eapply fine_le; [apply IHm; [exact G|cbn [length] in *; lia]|cbn [length] in *; lia]|]. intros x _ G' L'. cbn. auto.
  - intros p H Hf. cbn [items]. destruct (skip_fine p H) as (p1 & -> & G1 & L1). cbn [pbind].
    apply fine_bind; [eapply fine_le; [apply IHv; [exact G1|lia]|exact L1]|]. intros [v p2] _ G2 L2. cbn [snd] in *.
    destruct (skip_fine p2 G2) as (p3 & -> & G3 & L3). cbn [pbind]. destruct (good_cons p3 G3) as (c & p4 & ->). cbn [rd pbind tl].
    cbn [length] in L3.
    destruct (c =? 44) eqn:E.
    + apply fine_bind; [eapply fine_le; [apply IHi; [apply (good_tl c); [exact G3|lia|lia]|lia]|lia]|]. intros x _ G L. cbn. auto.
    + destruct (c =? 93) eqn:E'; [|exact I]. cbn [fine snd]. split; [apply (good_tl c); [exact G3|lia|lia]|lia].
  - intros p H Hf. cbn [members]. destruct (skip_fine p H) as (p1 & -> & G1 & L1). cbn [pbind].
    pose proof (string_fine p1 G1) as (S1 & S2).
    apply fine_bind; [eapply fine_le; [exact S1|exact L1]|]. intros [nm p2] Es G2 L2. cbn [snd] in *.
    apply S2 in Es. cbn [snd] in Es.
    destruct (skip_fine p2 G2) as (p3 & -> & G3 & L3). cbn [pbind]. destruct (good_cons p3 G3) as (c & p4 & ->). cbn [rd pbind tl].
    cbn [length] in L3. destruct (c =? 58) eqn:E; cbn [negb]; [|exact I].
    destruct (skip_fine p4) as (p5 & -> & G5 & L5); [apply (good_tl c); [exact G3|lia|lia]|]. cbn [pbind].
    apply fine_bind; [eapply fine_le; [apply IHv; [exact G5|lia]|lia]|]. intros [v p6] _ G6 L6. cbn [snd] in *.
    destruct (skip_fine p6 G6) as (p7 & -> & G7 & L7). cbn [pbind]. destruct (good_cons p7 G7) as (c' & p8 & ->). cbn [rd pbind tl].
    cbn [length] in L7.
    destruct (c' =? 44) eqn:E'.
    + apply fine_bind; [eapply fine_le; [apply IHm; [apply (good_tl c'); [exact G7|lia|lia]|lia]|lia]|]. intros x _ G L. cbn. auto.
    + destruct (c' =? 125) eqn:E2; [|exact I]. cbn [fine snd]. split; [apply (good_tl c'); [exact G7|lia|lia]|lia].
Qed.

Theorem parse_fine : forall t, escapes_ok t -> short_exponents t ->
  (exists v, cJSON_Parse (t ++ [0]) = POk v) \/ cJSON_Parse (t ++ [0]) = PFail.
Proof.
  intros t He Hs. unfold cJSON_Parse. destruct (skip_fine (t ++ [0])) as (p & -> & G & L); [exists t; auto|]. cbn [pbind].
  pose proof (proj1 (values_fine (2 * length p + 2)) p G ltac:(lia)) as F.
  destruct (parse_value (2 * length p + 2) p) as [x| |b|]; cbn in *; [left; eauto|right; reflexivity|destruct F|destruct F].
Qed.
