(** Valid JSON texts are parsed to what they mean. *)
Require Import Verif.Base Verif.Json_Model Verif.Json_Spec.

(** ** Small steps *)
Definition solid (p : list Z) : Prop := exists c q, p = c :: q /\ (c = 0 \/ 32 < c).

Lemma skip_solid : forall p, solid p -> skip p = POk p.
Proof.
  intros p (c & q & -> & H). cbn [skip].
  replace (negb (c =? 0) && (c <=? 32)) with false; [reflexivity|]. symmetry.
  destruct H as [->|H]; [reflexivity|]. apply andb_false_iff. right. lia.
Qed.

Lemma skip_ws : forall a p, ws a -> solid p -> skip (a ++ p) = POk p.
Proof.
  induction a as [|c a IH]; intros p Hw Hs; cbn [app]; [apply skip_solid; exact Hs|].
  inversion Hw as [|? ? Hc Hw']; subst. cbn [skip].
  replace (negb (c =? 0) && (c <=? 32)) with true; [apply IH; assumption|]. lia.
Qed.

Lemma is_digit_true : forall c, digit c -> is_digit c = true.
Proof. unfold digit, is_digit. intros c H. lia. Qed.
Lemma is_digit_false : forall c, ~ digit c -> is_digit c = false.
Proof. unfold digit, is_digit. intros c H. lia. Qed.

(** The next character is not in a certain set. *)
Definition head_not (P : Z -> Prop) (p : list Z) : Prop := exists c q, p = c :: q /\ ~ P c.

Lemma mantissa_ok : forall d r n k, Forall digit d -> head_not digit r ->
  mantissa (d ++ r) n k = POk (fold_left (fun n c => 10 * n + (c - 48)) d n, k + Z.of_nat (length d), r).
Proof.
  induction d as [|c d IH]; intros r n k Hd Hr.
  - cbn [app fold_left length]. destruct Hr as (c & q & -> & Hc). cbn [mantissa]. rewrite is_digit_false by exact Hc.
    rewrite Z.add_0_r. reflexivity.
  - inversion Hd; subst. cbn [app mantissa]. rewrite is_digit_true by assumption. rewrite IH by assumption. cbn [fold_left length].
    replace (k + Z.of_nat (S (length d))) with (k + 1 + Z.of_nat (length d)) by lia. reflexivity.
Qed.

Lemma dec_pos : forall d n, Forall digit d -> 0 <= n -> n <= fold_left (fun n c => 10 * n + (c - 48)) d n.
Proof.
  induction d as [|c d IH]; intros n Hd Hn; cbn [fold_left]; [lia|]. inversion Hd as [|? ? Hc Hd']; subst. unfold digit in Hc.
  etransitivity; [|apply IH; [assumption|lia]]. lia.
Qed.

Lemma exponent_ok : forall d r n, Forall digit d -> head_not digit r -> 0 <= n ->
  fold_left (fun n c => 10 * n + (c - 48)) d n < 2 ^ 31 ->
  exponent (d ++ r) n = POk (fold_left (fun n c => 10 * n + (c - 48)) d n, r).
Proof.
  induction d as [|c d IH]; intros r n Hd Hr Hn Hb.
  - cbn [app fold_left]. destruct Hr as (c & q & -> & Hc). cbn [exponent]. rewrite is_digit_false by exact Hc. reflexivity.
  - inversion Hd as [|? ? Hc Hd']; subst. cbn [app exponent]. rewrite is_digit_true by assumption. cbn [fold_left] in *.
    unfold digit in Hc. pose proof (dec_pos d (10 * n + (c - 48)) Hd' ltac:(lia)).
    replace (2 ^ 31 <=? 10 * n + (c - 48)) with false by lia. apply IH; auto. lia.
Qed.

Lemma int_part_ok : forall i r, jint i -> head_not digit r -> int_part (i ++ r) = POk (dec i, r).
Proof.
  intros i r [->|(c & d & -> & Hc & Hd)] Hr; unfold int_part.
  - cbn [app rd pbind]. cbn [Z.eqb Pos.eqb tl]. destruct Hr as (c & q & -> & Hc). cbn [rd pbind]. unfold digit in Hc.
    replace ((49 <=? c) && (c <=? 57)) with false by lia. reflexivity.
  - cbn [app rd pbind]. replace (c =? 48) with false by lia. cbn [rd pbind].
    replace ((49 <=? c) && (c <=? 57)) with true by lia.
    change (c :: d ++ r) with ((c :: d) ++ r). rewrite (mantissa_ok (c :: d) r 0 0); [|constructor; [unfold digit; lia|exact Hd]|exact Hr]. cbn [pbind fst snd]. reflexivity.
Qed.

Lemma frac_part_ok : forall fs f r n, jfrac fs f -> head_not (fun c => digit c \/ c = 46) r ->
  frac_part (fs ++ r) n = POk (fold_left (fun n c => 10 * n + (c - 48)) f n, Z.of_nat (length f), r).
Proof.
  intros fs f r n [(-> & ->)|(-> & Hne & Hd)] (c & q & -> & Hc); unfold frac_part.
  - cbn [app rd pbind]. replace (c =? 46) with false by (clear - Hc; lia). reflexivity.
  - cbn [app rd pbind]. replace (46 =? 46) with true by reflexivity. cbn [tl]. destruct f as [|x f]; [congruence|].
    cbn [app rd pbind]. inversion Hd; subst. rewrite is_digit_true by assumption.
    change (x :: f ++ c :: q) with ((x :: f) ++ c :: q). rewrite (mantissa_ok (x :: f) (c :: q) n 0); [reflexivity|exact Hd|]. exists c, q. split; [reflexivity|tauto].
Qed.

Lemma exp_part_ok : forall es e r, jexp es e -> Z.abs e < 2 ^ 31 -> head_not (fun c => digit c \/ c = 101 \/ c = 69) r ->
  exp_part (es ++ r) = POk (e, r).
Proof.
  intros es e r [(-> & ->)|(c & sg & s & d & Hc & Hsg & Hne & Hd & -> & ->)] Hb (c0 & q & -> & Hc0); unfold exp_part.
  - cbn [app rd pbind]. replace ((c0 =? 101) || (c0 =? 69)) with false by (clear - Hc0; lia). reflexivity.
  - cbn [app rd pbind]. replace ((c =? 101) || (c =? 69)) with true by (clear - Hc; lia). cbn [tl].
    pose proof (dec_pos d 0 Hd ltac:(lia)) as Hp. fold (dec d) in Hp.
    assert (Hx : exponent (d ++ c0 :: q) 0 = POk (dec d, c0 :: q)).
    { apply exponent_ok; [exact Hd|exists c0, q; split; [reflexivity|tauto]|lia|]. fold (dec d).
      destruct Hsg as [(_ & ->)|[(_ & ->)|(_ & ->)]]; lia. }
    destruct d as [|x d]; [congruence|].
    destruct Hsg as [(-> & ->)|[(-> & ->)|(-> & ->)]].
    + cbn [app rd pbind]. inversion Hd as [|? ? Hx0 Hd']; subst. unfold digit in Hx0.
      replace ((x =? 43) || (x =? 45)) with false by lia. replace (x =? 45) with false by lia.
      cbn [app] in Hx. rewrite Hx. reflexivity.
    + cbn [app rd pbind tl]. cbn [Z.eqb Pos.eqb orb tl app]. cbn [app] in Hx. rewrite Hx. reflexivity.
    + cbn [app rd pbind tl]. cbn [Z.eqb Pos.eqb orb tl app]. cbn [app] in Hx. rewrite Hx. reflexivity.
Qed.

(** What may come after a value. *)
Definition follows (p : list Z) : Prop :=
  exists c q, p = c :: q /\ (0 <= c <= 32 \/ c = 44 \/ c = 93 \/ c = 125).

Lemma follows_not : forall p, follows p -> head_not (fun c => digit c \/ c = 46 \/ c = 101 \/ c = 69 \/ c = 45) p.
Proof. intros p (c & q & -> & H). exists c, q. split; [reflexivity|]. unfold digit. lia. Qed.

Lemma head_not_weaken : forall (P Q : Z -> Prop) p, head_not P p -> (forall c, Q c -> P c) -> head_not Q p.
Proof. intros P Q p (c & q & -> & H) W. exists c, q. split; [reflexivity|auto]. Qed.

Lemma fold_app_dec : forall a b, fold_left (fun n c => 10 * n + (c - 48)) b (dec a) = dec (a ++ b).
Proof. intros a b. unfold dec. rewrite fold_left_app. reflexivity. Qed.

Lemma number_ok : forall s v e r, jnumber s v e -> Z.abs e < 2 ^ 31 -> follows r -> parse_number (s ++ r) = POk (v, r).
Proof.
  intros s v e r H Hb Hr. apply follows_not in Hr. destruct H as [neg i fs f es e Hi Hf He].
  assert (H3 : head_not (fun c => digit c \/ c = 101 \/ c = 69) r) by (eapply head_not_weaken; [exact Hr|cbv beta; tauto]).
  assert (H2 : head_not (fun c => digit c \/ c = 46) (es ++ r)).
  { destruct He as [(-> & _)|(c & sg & s & d & Hc & _ & _ & _ & -> & _)].
    - eapply head_not_weaken; [exact Hr|cbv beta; tauto].
    - exists c, ((sg ++ d) ++ r). split; [reflexivity|]. unfold digit. lia. }
  assert (H1 : head_not digit (fs ++ es ++ r)).
  { destruct Hf as [(-> & _)|(-> & _)].
    - eapply head_not_weaken; [exact H2|cbv beta; tauto].
    - exists 46, (f ++ es ++ r). split; [reflexivity|]. unfold digit. lia. }
  unfold parse_number. rewrite <- !app_assoc.
  assert (Hc : rd (((if neg then [45] else []) ++ i ++ fs ++ es ++ r)) = POk (if neg then 45 else hd 0 i) /\ hd 0 i <> 45).
  { destruct Hi as [->|(c & d & -> & Hc & _)]; cbn [hd]; destruct neg; cbn [app rd]; (split; [reflexivity|lia]). }
  destruct Hc as (-> & Hn). cbn [pbind].
  assert (En : ((if neg then 45 else hd 0 i) =? 45) = neg) by (destruct neg; [reflexivity|lia]). rewrite En.
  assert (Et : (if neg then tl ((if neg then [45] else []) ++ i ++ fs ++ es ++ r) else (if neg then [45] else []) ++ i ++ fs ++ es ++ r)
     = i ++ fs ++ es ++ r) by (destruct neg; reflexivity). rewrite Et.
  rewrite (int_part_ok i _ Hi H1). cbn [pbind fst snd].
  rewrite (frac_part_ok fs f _ _ Hf H2). cbn [pbind fst snd].
  rewrite (exp_part_ok es e r He Hb H3). cbn [pbind fst snd]. rewrite fold_app_dec. reflexivity.
Qed.

(** ** Strings *)
Lemma hexd_ok : forall c v, hexd c v -> hex_digit c = Some v.
Proof.
  intros c v H. unfold hex_digit, is_digit. destruct H as [(H & ->)|[(H & ->)|(H & ->)]].
  - replace ((48 <=? c) && (c <=? 57)) with true by lia. reflexivity.
  - replace ((48 <=? c) && (c <=? 57)) with false by lia. replace ((65 <=? c) && (c <=? 70)) with true by lia. f_equal. lia.
  - replace ((48 <=? c) && (c <=? 57)) with false by lia. replace ((65 <=? c) && (c <=? 70)) with false by lia.
    replace ((97 <=? c) && (c <=? 102)) with true by lia. f_equal. lia.
Qed.

Lemma hexd_range : forall c v, hexd c v -> 0 <= v < 16 /\ 48 <= c <= 102 /\ c <> 92.
Proof. intros c v [(H & ->)|[(H & ->)|(H & ->)]]; lia. Qed.

Lemma hex4_ok : forall a b c d x r, hex4 a b c d x -> parse_hex4 (a :: b :: c :: d :: r) = POk x /\ 0 <= x < 65536.
Proof.
  intros a b c d x r (h & i & j & k & Ha & Hb & Hc & Hd & ->).
  pose proof (hexd_range _ _ Ha). pose proof (hexd_range _ _ Hb). pose proof (hexd_range _ _ Hc). pose proof (hexd_range _ _ Hd).
  split; [|lia]. unfold parse_hex4. cbn [hex_loop rd pbind tl].
  rewrite (hexd_ok _ _ Ha), (hexd_ok _ _ Hb), (hexd_ok _ _ Hc), (hexd_ok _ _ Hd).
  rewrite !Z.shiftl_mul_pow2 by lia. f_equal. lia.
Qed.

Lemma lor_add : forall a b n, 0 <= n -> 0 <= b < 2 ^ n -> Z.lor (a * 2 ^ n) b = a * 2 ^ n + b.
Proof.
  intros a b n Hn Hb. assert (E : Z.land (a * 2 ^ n) b = 0).
  { apply Z.bits_inj'. intros i Hi. rewrite Z.land_spec, Z.bits_0.
    destruct (Z_lt_dec i n) as [L|L].
    - rewrite Z.mul_pow2_bits_low by lia. reflexivity.
    - assert (Hbi : Z.testbit b i = false); [|rewrite Hbi; apply andb_false_r].
      destruct (Z.eq_dec b 0) as [->|Hne]; [apply Z.bits_0|]. apply Z.bits_above_log2; [lia|].
      apply Z.log2_lt_pow2; [lia|]. eapply Z.lt_le_trans; [apply Hb|]. apply Z.pow_le_mono_r; lia. }
  symmetry. apply Z.add_nocarry_lxor in E. rewrite E. apply Z.bits_inj'. intros i Hi.
  rewrite Z.lxor_spec, Z.lor_spec.
  assert (D : Z.testbit (a * 2 ^ n) i && Z.testbit b i = false).
  { destruct (Z_lt_dec i n) as [L|L]; [rewrite Z.mul_pow2_bits_low by lia; reflexivity|].
    assert (Hbi : Z.testbit b i = false); [|rewrite Hbi; apply andb_false_r].
    destruct (Z.eq_dec b 0) as [->|Hne]; [apply Z.bits_0|]. apply Z.bits_above_log2; [lia|].
    apply Z.log2_lt_pow2; [lia|]. eapply Z.lt_le_trans; [apply Hb|]. apply Z.pow_le_mono_r; lia. }
  destruct (Z.testbit (a * 2 ^ n) i), (Z.testbit b i); cbn in *; congruence.
Qed.

Lemma cont_ok : forall x, 0 <= x -> cont x = 128 + x mod 64.
Proof.
  intros x Hx. unfold cont.
  assert (E : Z.land (Z.lor x 0x80) 0xBF = Z.lor 0x80 (Z.land x (Z.ones 6))).
  { apply Z.bits_inj'. intros i Hi. rewrite Z.land_spec, !Z.lor_spec, Z.land_spec.
    destruct (Z_lt_dec i 8) as [L|L].
    - assert (C : i = 0 \/ i = 1 \/ i = 2 \/ i = 3 \/ i = 4 \/ i = 5 \/ i = 6 \/ i = 7) by lia.
      destruct C as [->|[->|[->|[->|[->|[->|[->| ->]]]]]]]; cbn [Z.testbit Pos.testbit Z.ones]; 
        change (Z.testbit 191 0) with true; vm_compute (Z.ones 6); cbn; rewrite ?andb_true_r, ?andb_false_r, ?orb_false_r, ?orb_true_r; reflexivity.
    - rewrite (Z.bits_above_log2 0xBF) by (cbn; lia). rewrite (Z.bits_above_log2 0x80) by (cbn; lia).
      rewrite (Z.bits_above_log2 (Z.ones 6)) by (cbn; lia). rewrite !andb_false_r. reflexivity. }
  rewrite E, Z.land_ones by lia. change 0x80 with (2 * 2 ^ 6). rewrite lor_add by (try lia; apply Z.mod_pos_bound; lia). reflexivity.
Qed.

Lemma lead_ok : forall x n m k, first_mark n = m * 2 ^ k -> 0 <= k -> 0 <= x < 2 ^ k -> 0 <= m * 2 ^ k + x < 256 ->
  lead x n = first_mark n + x.
Proof.
  intros x n m k E Hk Hx Hb. unfold lead. rewrite Z.lor_comm, E, lor_add by assumption.
  change 0xFF with (Z.ones 8). rewrite Z.land_ones by lia. apply Z.mod_small. exact Hb.
Qed.

Lemma encode_utf8 : forall x, 0 <= x < 0x110000 -> encode x = utf8 x.
Proof.
  intros x Hx. unfold encode, utf8. rewrite !Z.shiftr_div_pow2 by lia.
  change (2 ^ 6) with 64. change (2 ^ 12) with 4096. change (2 ^ 18) with 262144.
  change 0x80 with 128. change 0x800 with 2048. change 0x10000 with 65536.
  assert (D1 : 0 <= x / 64) by (apply Z.div_pos; lia). assert (D2 : 0 <= x / 4096) by (apply Z.div_pos; lia).
  destruct (x <? 128) eqn:E1.
  - f_equal. unfold lead. change (first_mark 1) with 0. rewrite Z.lor_0_r. change 0xFF with (Z.ones 8). rewrite Z.land_ones by lia.
    apply Z.mod_small. change (2 ^ 8) with 256. lia.
  - destruct (x <? 2048) eqn:E2.
    + assert (0 <= x / 64 < 32) by (split; [lia|apply Z.div_lt_upper_bound; lia]).
      rewrite (lead_ok (x / 64) 2 6 5) by (reflexivity || lia). rewrite cont_ok by lia. reflexivity.
    + destruct (x <? 65536) eqn:E3.
      * assert (0 <= x / 4096 < 16) by (split; [lia|apply Z.div_lt_upper_bound; lia]).
        rewrite (lead_ok (x / 4096) 3 14 4) by (reflexivity || lia). rewrite !cont_ok by lia. reflexivity.
      * assert (0 <= x / 262144 < 8) by (split; [apply Z.div_pos; lia|apply Z.div_lt_upper_bound; lia]).
        rewrite (lead_ok (x / 262144) 4 30 3) by (reflexivity || lia). rewrite !cont_ok by lia. reflexivity.
Qed.

Lemma encode_length : forall x, (length (encode x) <= 4)%nat /\ (x < 65536 -> (length (encode x) <= 3)%nat).
Proof.
  intros x. unfold encode. change 0x10000 with 65536. destruct (x <? 0x80); [cbn; lia|]. destruct (x <? 0x800); [cbn; lia|].
  destruct (x <? 65536) eqn:E; cbn; lia.
Qed.

Lemma unicode_one : forall a b c d x r, hex4 a b c d x -> 0 < x -> ~ (0xD800 <= x <= 0xDFFF) ->
  unicode (117 :: a :: b :: c :: d :: r) = POk (utf8 x, d :: r).
Proof.
  intros a b c d x r H Hx Hs. destruct (hex4_ok a b c d x r H) as (E & Hr).
  unfold unicode. cbn [tl]. rewrite E. cbn [pbind skipn].
  replace (((0xDC00 <=? x) && (x <=? 0xDFFF)) || (x =? 0)) with false by lia.
  replace ((0xD800 <=? x) && (x <=? 0xDBFF)) with false by lia. rewrite encode_utf8 by lia. reflexivity.
Qed.

Lemma unicode_pair : forall a b c d x a' b' c' d' x' r, hex4 a b c d x -> hex4 a' b' c' d' x' ->
  0xD800 <= x <= 0xDBFF -> 0xDC00 <= x' <= 0xDFFF ->
  unicode (117 :: a :: b :: c :: d :: 92 :: 117 :: a' :: b' :: c' :: d' :: r)
  = POk (utf8 (65536 + 1024 * (x - 0xD800) + (x' - 0xDC00)), d' :: r).
Proof.
  intros a b c d x a' b' c' d' x' r H H' Hx Hx'.
  destruct (hex4_ok a b c d x (92 :: 117 :: a' :: b' :: c' :: d' :: r) H) as (E & _). destruct (hex4_ok a' b' c' d' x' r H') as (E' & _).
  unfold unicode. cbn [tl]. rewrite E. cbn [pbind skipn].
  replace (((0xDC00 <=? x) && (x <=? 0xDFFF)) || (x =? 0)) with false by lia.
  replace ((0xD800 <=? x) && (x <=? 0xDBFF)) with true by lia. cbn [rd pbind]. cbn [Z.eqb Pos.eqb negb].
  rewrite E'. cbn [pbind]. replace ((x' <? 0xDC00) || (0xDFFF <? x')) with false by lia.
  assert (L1 : Z.land x 0x3FF = x - 0xD800).
  { change 0x3FF with (Z.ones 10). rewrite Z.land_ones by lia. symmetry. apply (Z.mod_unique _ _ 54); [left|]; change (2 ^ 10) with 1024; lia. }
  assert (L2 : Z.land x' 0x3FF = x' - 0xDC00).
  { change 0x3FF with (Z.ones 10). rewrite Z.land_ones by lia. symmetry. apply (Z.mod_unique _ _ 55); [left|]; change (2 ^ 10) with 1024; lia. }
  rewrite L1, L2, Z.shiftl_mul_pow2, lor_add by (cbn; lia).
  rewrite encode_utf8 by (change (2 ^ 10) with 1024; lia). change (2 ^ 10) with 1024.
  replace ((x - 0xD800) * 1024 + (x' - 0xDC00) + 0x10000) with (65536 + 1024 * (x - 0xD800) + (x' - 0xDC00)) by lia. reflexivity.
Qed.

Lemma utf8_length : forall x, 0 <= x < 0x110000 -> (length (utf8 x) <= 4)%nat /\ (x < 65536 -> (length (utf8 x) <= 3)%nat).
Proof. intros x Hx. rewrite <- encode_utf8 by exact Hx. apply encode_length. Qed.

Lemma write_ok : forall cap out bs, (length out + length bs <= cap)%nat -> write cap out bs = POk (out ++ bs).
Proof. intros cap out bs H. unfold write. destruct (length out + length bs <=? cap)%nat eqn:E; [reflexivity|]. apply Nat.leb_gt in E. lia. Qed.

Lemma hex4_chars : forall a b c d x, hex4 a b c d x ->
  (forall y, In y [a; b; c; d] -> y <> 34 /\ y <> 0 /\ y <> 92).
Proof.
  intros a b c d x (h & i & j & k & Ha & Hb & Hc & Hd & _) y.
  apply hexd_range in Ha, Hb, Hc, Hd. intros [<-|[<-|[<-|[<-|[]]]]]; lia.
Qed.

Lemma str_len_plain : forall c p, c <> 34 -> c <> 0 -> c <> 92 -> str_len (c :: p) = (let? n := str_len p in POk (S n)).
Proof. intros c p H1 H2 H3. cbn [str_len]. replace ((c =? 34) || (c =? 0)) with false by lia. replace (c =? 92) with false by lia. reflexivity. Qed.
Lemma str_len_esc : forall c p, str_len (92 :: c :: p) = (let? n := str_len p in POk (S n)).
Proof. reflexivity. Qed.

Lemma str_len_hex4 : forall a b c d x p, hex4 a b c d x ->
  str_len (a :: b :: c :: d :: p) = (let? n := str_len p in POk (S (S (S (S n))))).
Proof.
  intros a b c d x p H. pose proof (hex4_chars _ _ _ _ _ H) as C.
  rewrite !str_len_plain by (apply C; cbn; tauto). destruct (str_len p); reflexivity.
Qed.

Lemma jchar_len : forall a m p n, jchar a m -> str_len p = POk n ->
  exists n', str_len (a ++ p) = POk n' /\ (length m + n <= n')%nat.
Proof.
  intros a m p n H Hn. destruct H as [c Hc N1 N2|x y _|a b c d x H Hx Hs|a b c d x a' b' c' d' x' H H' Hx Hx']; cbn [app].
  - rewrite str_len_plain, Hn by lia. cbn. eexists; split; [reflexivity|lia].
  - rewrite str_len_esc, Hn. cbn. eexists; split; [reflexivity|lia].
  - rewrite str_len_esc, (str_len_hex4 _ _ _ _ _ _ H), Hn. cbn [pbind]. eexists; split; [reflexivity|].
    destruct (hex4_ok _ _ _ _ _ [] H) as (_ & Hr). pose proof (utf8_length x ltac:(lia)). lia.
  - rewrite str_len_esc, (str_len_hex4 _ _ _ _ _ _ H), str_len_esc, (str_len_hex4 _ _ _ _ _ _ H'), Hn. cbn [pbind].
    eexists; split; [reflexivity|].
    pose proof (utf8_length (65536 + 1024 * (x - 0xD800) + (x' - 0xDC00)) ltac:(lia)). lia.
Qed.

Lemma jchars_len : forall s t r, jchars s t -> exists n, str_len (s ++ 34 :: r) = POk n /\ (length t <= n)%nat.
Proof.
  intros s t r H. induction H as [|a m s t Ha Hs (n & IH & Hn)].
  - exists O. split; [reflexivity|cbn; lia].
  - rewrite <- app_assoc. destruct (jchar_len a m _ _ Ha IH) as (n' & -> & Hn'). exists n'. split; [reflexivity|].
    rewrite app_length. lia.
Qed.

Lemma jchar_nonempty : forall a m, jchar a m -> (1 <= length a)%nat.
Proof. intros a m []; cbn; lia. Qed.

Lemma copy_char : forall a m f cap p out, jchar a m -> (length out + length m <= cap)%nat ->
  str_copy (S f) cap (a ++ p) out = str_copy f cap p (out ++ m).
Proof.
  intros a m f cap p out H Hc. destruct H as [c Hr N1 N2|x y Hin|a b c d x H Hx Hs|a b c d x a' b' c' d' x' H H' Hx Hx'].
  - cbn [app str_copy rd pbind]. replace ((c =? 34) || (c =? 0)) with false by lia. replace (c =? 92) with false by lia. cbn [negb].
    rewrite write_ok by exact Hc. reflexivity.
  - cbn [app str_copy rd pbind tl]. cbn [Z.eqb Pos.eqb orb negb].
    cbn [In] in Hin. repeat (destruct Hin as [Hin|Hin]; [injection Hin as <- <-; cbn [Z.eqb Pos.eqb pbind fst snd tl]; rewrite write_ok by exact Hc; reflexivity|]).
    destruct Hin.
  - cbn [app]. cbn [str_copy rd pbind tl]. cbn [Z.eqb Pos.eqb orb negb].
    rewrite (unicode_one _ _ _ _ _ _ H Hx Hs). cbn [pbind fst snd tl]. rewrite write_ok by exact Hc. reflexivity.
  - cbn [app]. cbn [str_copy rd pbind tl]. cbn [Z.eqb Pos.eqb orb negb].
    rewrite (unicode_pair _ _ _ _ _ _ _ _ _ _ _ H H' Hx Hx'). cbn [pbind fst snd tl]. rewrite write_ok by exact Hc. reflexivity.
Qed.

Lemma copy_chars : forall s t, jchars s t -> forall f cap r out, (length s < f)%nat -> (length out + length t <= cap)%nat ->
  str_copy f cap (s ++ 34 :: r) out = POk (out ++ t, 34 :: r).
Proof.
  intros s t H. induction H as [|a m s t Ha Hs IH]; intros f cap r out Hf Hc.
  - destruct f; [cbn in Hf; lia|]. cbn. rewrite app_nil_r. reflexivity.
  - destruct f; [lia|]. rewrite app_length in Hf, Hc. pose proof (jchar_nonempty a m Ha). rewrite <- app_assoc.
    rewrite (copy_char a m) by (try exact Ha; lia). rewrite IH by (try rewrite app_length; lia). rewrite app_assoc. reflexivity.
Qed.

Lemma string_ok : forall s v r, jstring s v -> parse_string (s ++ r) = POk (v, r).
Proof.
  intros s v r (u & Hu & ->). cbn [app]. rewrite <- app_assoc. cbn [app]. unfold parse_string. cbn [rd pbind]. cbn [Z.eqb Pos.eqb negb tl].
  destruct (jchars_len u v r Hu) as (n & E & Hn). rewrite E. cbn [pbind].
  rewrite (copy_chars u v Hu) by (cbn [length]; rewrite ?app_length; cbn [length]; lia). cbn [pbind app].
  rewrite write_ok by (cbn; lia). cbn [pbind rd]. reflexivity.
Qed.

(** ** Values *)
Lemma jnumber_head : forall s v e, jnumber s v e -> exists c q, s = c :: q /\ (c = 45 \/ digit c).
Proof.
  intros s v e [neg i fs f es e' Hi _ _]. destruct neg.
  - eexists 45, _. split; [reflexivity|]. left. reflexivity.
  - destruct Hi as [->|(c & d & -> & Hc & _)]; (eexists _, _; split; [reflexivity|right; unfold digit; lia]).
Qed.

Lemma jtext_head : forall v s, jtext v s -> exists c q, s = c :: q /\ 32 < c /\ c <> 93 /\ c <> 125.
Proof.
  intros v s H. destruct H as [| | |v s e H _|v s H|w H|l s H|w H|l s H]; try (eexists _, _; split; [reflexivity|lia]).
  - destruct (jnumber_head _ _ _ H) as (c & q & -> & Hc). exists c, q. split; [reflexivity|]. unfold digit in Hc. lia.
  - destruct H as (u & _ & ->). eexists _, _; split; [reflexivity|lia].
Qed.

Lemma jtext_solid : forall v s r, jtext v s -> solid (s ++ r).
Proof. intros v s r H. destruct (jtext_head v s H) as (c & q & -> & Hc & _). exists c, (q ++ r). split; [reflexivity|right; exact Hc]. Qed.

Lemma ws_follows : forall b r, ws b -> follows r -> follows (b ++ r).
Proof.
  intros b r Hb Hr. destruct b as [|c b]; [exact Hr|]. inversion Hb as [|? ? Hc _]; subst. exists c, (b ++ r). split; [reflexivity|lia].
Qed.

Lemma starts_no : forall w0 w c q, c <> w0 -> starts (w0 :: w) (c :: q) = POk false.
Proof. intros w0 w c q H. cbn [starts]. replace (c =? w0) with false by lia. reflexivity. Qed.

Lemma pv_start : forall f c q, c <> 110 -> c <> 102 -> c <> 116 ->
  parse_value (S f) (c :: q) =
    (if c =? 34 then let? r := parse_string (c :: q) in POk (JStr (fst r), snd r)
     else if (c =? 45) || is_digit c then parse_number (c :: q)
     else if c =? 91 then
      let? p := skip q in
      let? c := rd p in
      if c =? 93 then POk (JArr [], tl p)
      else let? r := items f p in POk (JArr (fst r), snd r)
    else if c =? 123 then
      let? p := skip q in
      let? c := rd p in
      if c =? 125 then POk (JObj [], tl p)
      else let? r := members f p in POk (JObj (fst r), snd r)
    else PFail).
Proof.
  intros f c q H1 H2 H3. cbn [parse_value]. unfold w_null, w_false, w_true. rewrite !starts_no by lia. cbn [pbind rd tl]. reflexivity.
Qed.

Lemma skip_twice : forall p q, skip p = POk q -> skip q = POk q.
Proof.
  induction p as [|c p IH]; intros q H; [discriminate H|]. cbn [skip] in H.
  destruct (negb (c =? 0) && (c <=? 32)) eqn:E; [apply IH; exact H|]. injection H as <-. cbn [skip]. rewrite E. reflexivity.
Qed.

Lemma items_skip : forall f p q, skip p = POk q -> items f q = items f p.
Proof. intros [|f] p q H; [reflexivity|]. cbn [items]. rewrite H, (skip_twice _ _ H). reflexivity. Qed.
Lemma members_skip : forall f p q, skip p = POk q -> members f q = members f p.
Proof. intros [|f] p q H; [reflexivity|]. cbn [members]. rewrite H, (skip_twice _ _ H). reflexivity. Qed.

Lemma jitems_skip : forall l t r, jitems l t -> exists c q, skip (t ++ r) = POk (c :: q) /\ c <> 93.
Proof.
  intros l t r H. destruct H as [a v s b Ha Hs Hb|a v s b l t Ha Hs Hb Ht];
    rewrite <- app_assoc, skip_ws by (try exact Ha; rewrite <- app_assoc; eapply jtext_solid; exact Hs);
    destruct (jtext_head v s Hs) as (c & q & -> & Hc); rewrite <- app_assoc; eexists _, _; (split; [reflexivity|tauto]).
Qed.

Lemma jstring_solid : forall s v r, jstring s v -> exists q, s ++ r = 34 :: q.
Proof. intros s v r (u & _ & ->). eexists. reflexivity. Qed.

Lemma solid_sep : forall c q, 32 < c -> solid (c :: q).
Proof. intros c q H. exists c, q. split; [reflexivity|lia]. Qed.
Lemma jmembers_skip : forall l t r, jmembers l t -> exists c q, skip (t ++ r) = POk (c :: q) /\ c <> 125.
Proof.
  intros l t r H. destruct H as [a n k b c v s d Ha Hk _ _ _ _|a n k b c v s d l t Ha Hk _ _ _ _ _];
    rewrite <- app_assoc; rewrite <- app_assoc.
  - destruct (jstring_solid k n ((b ++ 58 :: c ++ s ++ d) ++ r) Hk) as (q & E). rewrite E.
    rewrite skip_ws by (try exact Ha; apply solid_sep; lia). eexists _, _. split; [reflexivity|lia].
  - destruct (jstring_solid k n ((b ++ 58 :: c ++ s ++ d ++ 44 :: t) ++ r) Hk) as (q & E). rewrite E.
    rewrite skip_ws by (try exact Ha; apply solid_sep; lia). eexists _, _. split; [reflexivity|lia].
Qed.

Scheme jtext_min := Minimality for jtext Sort Prop
with jitems_min := Minimality for jitems Sort Prop
with jmembers_min := Minimality for jmembers Sort Prop.
Combined Scheme json_min from jtext_min, jitems_min, jmembers_min.

Lemma follows_sep : forall c q, c = 44 \/ c = 93 \/ c = 125 -> follows (c :: q).
Proof. intros c q H. exists c, q. split; [reflexivity|lia]. Qed.

Theorem values_ok :
  (forall v s, jtext v s -> forall r f, follows r -> (2 * length s <= f)%nat -> parse_value f (s ++ r) = POk (v, r)) /\
  (forall l t, jitems l t -> forall r f, (2 * length t + 1 <= f)%nat -> items f (t ++ 93 :: r) = POk (l, r)) /\
  (forall l t, jmembers l t -> forall r f, (2 * length t + 1 <= f)%nat -> members f (t ++ 125 :: r) = POk (l, r)).
Proof.
  apply json_min.
  - intros r [|f] _ Hf; [cbn in Hf; lia|]. reflexivity.
  - intros r [|f] _ Hf; [cbn in Hf; lia|]. reflexivity.
  - intros r [|f] _ Hf; [cbn in Hf; lia|]. reflexivity.
  - intros v s e H Hb r [|f] Hr Hf; destruct (jnumber_head s v e H) as (c & q & E & Hc); [subst s; cbn in Hf; lia|].
    pose proof (number_ok s v e r H Hb Hr) as N. subst s. cbn [app] in *. unfold digit in Hc. rewrite pv_start by lia.
    replace (c =? 34) with false by lia. replace ((c =? 45) || is_digit c) with true by (unfold is_digit; lia). exact N.
  - intros v s H r [|f] _ Hf; destruct (jstring_solid s v r H) as (q & E).
    + destruct H as (u & _ & ->). cbn in Hf. lia.
    + pose proof (string_ok s v r H) as N. rewrite E in *. rewrite pv_start by lia. cbn [Z.eqb Pos.eqb]. rewrite N. reflexivity.
  - intros w Hw r [|f] _ Hf; [cbn in Hf; lia|]. cbn [app]. rewrite <- app_assoc. rewrite pv_start by lia. cbn [Z.eqb Pos.eqb orb is_digit Z.leb Z.compare Pos.compare Pos.compare_cont andb].
    cbn [app]. rewrite skip_ws by (try exact Hw; apply solid_sep; lia). reflexivity.
  - intros l s H IH r [|f] _ Hf; [cbn in Hf; lia|]. cbn [app]. rewrite <- app_assoc. rewrite pv_start by lia. cbn [Z.eqb Pos.eqb orb is_digit Z.leb Z.compare Pos.compare Pos.compare_cont andb].
    cbn [app]. destruct (jitems_skip l s (93 :: r) H) as (c & q & E & Hc). rewrite E. cbn [pbind rd]. replace (c =? 93) with false by lia.
    rewrite (items_skip _ _ _ E). rewrite IH by (cbn [length] in Hf; rewrite app_length in Hf; cbn [length] in Hf; lia). reflexivity.
  - intros w Hw r [|f] _ Hf; [cbn in Hf; lia|]. cbn [app]. rewrite <- app_assoc. rewrite pv_start by lia. cbn [Z.eqb Pos.eqb orb is_digit Z.leb Z.compare Pos.compare Pos.compare_cont andb].
    cbn [app]. rewrite skip_ws by (try exact Hw; apply solid_sep; lia). reflexivity.
  - intros l s H IH r [|f] _ Hf; [cbn in Hf; lia|]. cbn [app]. rewrite <- app_assoc. rewrite pv_start by lia. cbn [Z.eqb Pos.eqb orb is_digit Z.leb Z.compare Pos.compare Pos.compare_cont andb].
    cbn [app]. destruct (jmembers_skip l s (125 :: r) H) as (c & q & E & Hc). rewrite E. cbn [pbind rd]. replace (c =? 125) with false by lia.
    rewrite (members_skip _ _ _ E). rewrite IH by (cbn [length] in Hf; rewrite app_length in Hf; cbn [length] in Hf; lia). reflexivity.
  - intros a v s b Ha Hs IH Hb r [|f] Hf; [lia|]. rewrite !app_length in Hf. rewrite <- !app_assoc. cbn [items].
    rewrite skip_ws by (try exact Ha; eapply jtext_solid; exact Hs). cbn [pbind].
    rewrite IH by (try (apply ws_follows; [exact Hb|apply follows_sep; lia]); lia). cbn [pbind].
    rewrite skip_ws by (try exact Hb; apply solid_sep; lia). reflexivity.
  - intros a v s b l t Ha Hs IH Hb Ht IHt r [|f] Hf; [lia|]. rewrite !app_length in Hf. cbn [length] in Hf. rewrite <- !app_assoc. cbn [items app].
    rewrite skip_ws by (try exact Ha; eapply jtext_solid; exact Hs). cbn [pbind].
    rewrite IH by (try (apply ws_follows; [exact Hb|apply follows_sep; lia]); lia). cbn [pbind].
    rewrite skip_ws by (try exact Hb; apply solid_sep; lia). cbn [pbind rd]. cbn [Z.eqb Pos.eqb tl]. rewrite IHt by lia. reflexivity.
  - intros a n k b c v s d Ha Hk Hb Hc Hs IH Hd r [|f] Hf; [lia|]. rewrite !app_length in Hf. cbn [length] in Hf. rewrite !app_length in Hf.
    rewrite <- !app_assoc. cbn [members app]. rewrite <- !app_assoc.
    destruct (jstring_solid k n (b ++ 58 :: c ++ s ++ d ++ 125 :: r) Hk) as (q & E).
    rewrite skip_ws by (try exact Ha; rewrite E; apply solid_sep; lia). cbn [pbind].
    rewrite (string_ok k n _ Hk). cbn [pbind]. rewrite skip_ws by (try exact Hb; apply solid_sep; lia). cbn [pbind rd].
    cbn [Z.eqb Pos.eqb negb tl]. rewrite skip_ws by (try exact Hc; eapply jtext_solid; exact Hs). cbn [pbind].
    rewrite IH by (try (apply ws_follows; [exact Hd|apply follows_sep; lia]); lia). cbn [pbind].
    rewrite skip_ws by (try exact Hd; apply solid_sep; lia). reflexivity.
  - intros a n k b c v s d l t Ha Hk Hb Hc Hs IH Hd Ht IHt r [|f] Hf; [lia|]. rewrite !app_length in Hf. cbn [length] in Hf. rewrite !app_length in Hf. cbn [length] in Hf.
    rewrite <- !app_assoc. cbn [members app]. rewrite <- !app_assoc. cbn [app].
    destruct (jstring_solid k n (b ++ 58 :: c ++ s ++ d ++ 44 :: t ++ 125 :: r) Hk) as (q & E).
    rewrite skip_ws by (try exact Ha; rewrite E; apply solid_sep; lia). cbn [pbind].
    rewrite (string_ok k n _ Hk). cbn [pbind]. rewrite skip_ws by (try exact Hb; apply solid_sep; lia). cbn [pbind rd].
    cbn [Z.eqb Pos.eqb negb tl]. rewrite skip_ws by (try exact Hc; eapply jtext_solid; exact Hs). cbn [pbind].
    rewrite IH by (try (apply ws_follows; [exact Hd|apply follows_sep; lia]); lia). cbn [pbind].
    rewrite skip_ws by (try exact Hd; apply solid_sep; lia). cbn [pbind rd]. cbn [Z.eqb Pos.eqb tl]. rewrite IHt by lia. reflexivity.
Qed.

Theorem text_ok : forall v t, json_text v t -> cJSON_Parse (t ++ [0]) = POk v.
Proof.
  intros v t (a & s & b & Ha & Hs & Hb & ->). unfold cJSON_Parse. rewrite <- !app_assoc.
  rewrite skip_ws by (try exact Ha; eapply jtext_solid; exact Hs). cbn [pbind].
  rewrite (proj1 values_ok v s Hs); [reflexivity| |rewrite !app_length; lia].
  apply ws_follows; [exact Hb|]. exists 0, []. split; [reflexivity|lia].
Qed.
