(** Lemmas for C41. *)
Require Import Verif.Base Verif.Csum_Model Verif.Pkt_Model Verif.Hdr_Model Verif.Ext_Model Verif.Ext_Spec.
Local Ltac Zify.zify_post_hook ::= Z.div_mod_to_equations.

Lemma i32_id x : 0 <= x < 2147483648 -> i32 x = x.
Proof. intros X. unfold i32, u32. change (2^32) with 4294967296. rewrite Z.mod_small by lia. destruct (x <? 2147483648) eqn:E; [reflexivity|lia]. Qed.
Lemma u64_id x : 0 <= x < 18446744073709551616 -> u64 x = x.
Proof. intros X. unfold u64. change (2^64) with 18446744073709551616. apply Z.mod_small. lia. Qed.
Lemma u32_id x : 0 <= x < 4294967296 -> u32 x = x.
Proof. intros X. unfold u32. change (2^32) with 4294967296. apply Z.mod_small. lia. Qed.

Lemma copy_bits_ok src off len room : 0 <= off -> 0 <= len -> off + len <= Z.of_nat (length src) -> len <= room ->
  copy_bits src off len room = XOk (firstn (Z.to_nat len) (skipn (Z.to_nat off) src)).
Proof.
  intros A B C D. unfold copy_bits. destruct (len <? 0) eqn:E1; [lia|]. destruct (Z.of_nat (length src) - len <? off) eqn:E2; [lia|].
  destruct (room <? len) eqn:E3; [lia|reflexivity].
Qed.

Lemma fix_ie_ok ohl inp out off ipl pad iel : 0 <= ohl -> 0 <= off -> 0 <= ipl -> 0 <= pad -> 0 <= iel ->
  ohl + ipl <= Z.of_nat (length out) -> off + iel <= Z.of_nat (length inp) -> (iel = 0 -> pad = 0) -> ohl + ipl + pad + iel < 2147483648 ->
  fix_ie ohl inp out off ipl pad iel =
  XOk (firstn (Z.to_nat (ohl + ipl)) out ++ repeat 0 (Z.to_nat pad) ++ firstn (Z.to_nat iel) (skipn (Z.to_nat off) inp)).
Proof.
  intros A0 A1 A2 A3 A4 B1 B2 B3 B4. unfold fix_ie. cbv zeta. rewrite !i32_id by lia.
  destruct (ohl + ipl + pad + iel <? 0) eqn:E; [lia|].
  rewrite copy_bits_ok by lia. cbn [xbind]. rewrite copy_bits_ok by lia. cbn [xbind].
  assert (J : firstn (Z.to_nat ohl) (skipn (Z.to_nat 0) out) ++ firstn (Z.to_nat ipl) (skipn (Z.to_nat ohl) out) = firstn (Z.to_nat (ohl + ipl)) out).
  { cbn [Z.to_nat skipn]. rewrite Z2Nat.inj_add by lia. rewrite <- (firstn_skipn (Z.to_nat ohl) out) at 3.
    assert (L : length (firstn (Z.to_nat ohl) out) = Z.to_nat ohl) by (rewrite firstn_length; lia).
    rewrite <- L at 3. rewrite firstn_app_2. reflexivity. }
  destruct (iel =? 0) eqn:E2; [apply Z.eqb_eq in E2|apply Z.eqb_neq in E2].
  - rewrite (B3 E2), E2. change (0 =? 0) with true. cbv iota. rewrite J. cbn [Z.to_nat repeat firstn app]. rewrite app_nil_r. reflexivity.
  - destruct ((pad <? 0) || (ohl + ipl + pad + iel - ohl - ipl <? pad)) eqn:E3; [lia|].
    rewrite copy_bits_ok by lia. cbn [xbind]. rewrite app_assoc, J. reflexivity.
Qed.

Section handle.
Context (max bits : Z) (force : bool) (ipl hin hout P : Z) (inp out : list Z).
Hypothesis (Hb : bits = 2 \/ bits = 3) (Hh : 0 <= hin) (Ho : 0 <= hout) (Hm : hout + 128 <= max <= 65535).
Hypothesis (Li : Z.of_nat (length inp) = hin + P) (Hp : 0 <= P) (Hi : hin + P < 65536 + 128) (Lo : Z.of_nat (length out) < 65536 + 128).
Hypothesis (Hd : hout + P - ipl <= Z.of_nat (length out)) (Hipl : 0 <= ipl).

Definition kept (iel : Z) : Z := 2 ^ bits * ((Z.min (Z.of_nat (length out)) max - iel - hout) / 2 ^ bits).

Lemma handle_cases :
  handle_icmp_extension max bits force ipl hin hout inp out =
  if (ipl =? 0) || (ipl =? P) then XOk (0, out)
  else if P <? ipl then XDrop J_ICMPEXT_BIG
  else
    let iel := P - ipl in
    if force || (max - hout - 128 <? iel) then XOk (0, firstn (Z.to_nat (Z.min (Z.of_nat (length out) - iel) max)) out)
    else let pad := Z.max 0 (128 - kept iel) in
      XOk ((kept iel + pad) / 2 ^ bits, firstn (Z.to_nat (hout + kept iel)) out ++ repeat 0 (Z.to_nat pad) ++ skipn (Z.to_nat (hin + ipl)) inp).
Proof.
  unfold handle_icmp_extension. cbv zeta. rewrite Li. replace (hin + P - hin) with P by lia. rewrite (u32_id P) by lia.
  destruct (ipl =? 0) eqn:E0; [apply Z.eqb_eq in E0; rewrite E0; reflexivity|apply Z.eqb_neq in E0]. cbn [orb].
  destruct (ipl =? P) eqn:E1; [reflexivity|apply Z.eqb_neq in E1]. destruct (P <? ipl) eqn:E2; [reflexivity|].
  rewrite (u64_id (hin + ipl)), (u64_id (hin + P - (hin + ipl))), (u32_id (hout + 128)), (u64_id (max - (hout + 128))) by lia.
  replace (hin + P - (hin + ipl)) with (P - ipl) by lia. replace (max - (hout + 128)) with (max - hout - 128) by lia.
  destruct (force || (max - hout - 128 <? P - ipl)) eqn:E3.
  - rewrite (u64_id (Z.of_nat (length out) - (P - ipl))) by lia. rewrite u64_id by lia.
    rewrite fix_ie_ok by lia. cbn [xbind Z.to_nat repeat firstn app]. rewrite app_nil_r.
    replace (hout + (Z.min (Z.of_nat (length out) - (P - ipl)) max - hout)) with (Z.min (Z.of_nat (length out) - (P - ipl)) max) by lia. reflexivity.
  - apply orb_false_iff in E3. destruct E3 as [_ E3]. apply Z.ltb_ge in E3.
    rewrite (u64_id (Z.min (Z.of_nat (length out)) max - (P - ipl) - hout)) by lia. fold (kept (P - ipl)).
    assert (K : 0 <= kept (P - ipl) <= Z.min (Z.of_nat (length out)) max - (P - ipl) - hout).
    { unfold kept. destruct Hb as [->| ->]; [change (2 ^ 2) with 4|change (2 ^ 3) with 8]; lia. }
    assert (PD : (if kept (P - ipl) <? 128 then 128 - kept (P - ipl) else 0) = Z.max 0 (128 - kept (P - ipl))) by (destruct (kept (P - ipl) <? 128) eqn:E; lia).
    rewrite PD. rewrite fix_ie_ok by lia. cbn [xbind].
    rewrite (firstn_all2 (n := Z.to_nat (P - ipl))); [reflexivity|]. rewrite skipn_length. lia.
Qed.
End handle.

(** ** Total length *)
Require Import Verif.Csum_Spec Verif.Csum_Proofs Verif.Pkt_Spec Verif.Pkt_Proofs Verif.Hdr_Spec Verif.Hdr_Proofs.
Local Ltac Zify.zify_post_hook ::= Z.div_mod_to_equations.

Lemma oct_put_out k (v o : list Z) i : (k + length v <= length o)%nat -> (i < k \/ k + length v <= i)%nat -> oct (put k v o) i = oct o i.
Proof.
  intros L I. unfold oct. rewrite put_nth by exact L. destruct (k <=? i)%nat eqn:A; [apply Nat.leb_le in A|reflexivity].
  destruct (i <? k + length v)%nat eqn:B; [apply Nat.ltb_lt in B; lia|reflexivity].
Qed.
Lemma oct_put_in k (v o : list Z) i : (k + length v <= length o)%nat -> (k <= i < k + length v)%nat -> oct (put k v o) i = nth (i - k) v 0.
Proof.
  intros L I. unfold oct. rewrite put_nth by exact L. destruct (k <=? i)%nat eqn:A; [|apply Nat.leb_gt in A; lia].
  destruct (i <? k + length v)%nat eqn:B; [reflexivity|apply Nat.ltb_ge in B; lia].
Qed.
Lemma field_put_after k (v o : list Z) a w : (k + length v <= length o)%nat -> (k + length v <= a)%nat -> field (put k v o) a w = field o a w.
Proof. intros L A. unfold field. rewrite skipn_put by assumption. reflexivity. Qed.
Lemma u8_octets2 v : Forall is_u8 (octets 2 v). Proof. apply octets_u8. Qed.

Lemma update_length_spec le out tos len id df more off ttl proto src dst :
  Forall is_u8 out -> (20 <= length out)%nat -> Z.of_nat (length out) < 65536 -> ipv4_header out 0 tos len id df more off ttl proto src dst ->
  let o := update_total_length le out in
  length o = length out /\ Forall is_u8 o /\ skipn 20 o = skipn 20 out
  /\ ipv4_header o 0 tos (Z.of_nat (length out)) id (df /\ len = Z.of_nat (length out)) more off ttl proto src dst.
Proof.
  intros F L B H. unfold update_total_length. cbv zeta. rewrite be16_word.
  destruct H as (H1 & H2 & H3 & H4 & H5 & H6 & H7 & H8 & H9 & H10 & H11 & H12 & H13). cbn [Nat.add] in *.
  destruct (word out 2 =? Z.of_nat (length out)) eqn:E; [apply Z.eqb_eq in E|apply Z.eqb_neq in E].
  - split; [reflexivity|]. split; [exact F|]. split; [reflexivity|]. unfold ipv4_header. cbn [Nat.add].
    split; [exact H1|]. split; [exact H2|]. split; [exact E|]. split; [exact H4|]. split; [exact H5|].
    split; [rewrite H6; split; [intros D; split; [exact D|congruence]|tauto]|]. split; [exact H7|]. split; [exact H8|]. split; [exact H9|]. split; [exact H10|]. split; [exact H11|]. split; [exact H12|exact H13].
  - set (n := Z.of_nat (length out)) in *. assert (NU : u16 n = n) by (rewrite u16_mod; apply Z.mod_small; lia). rewrite NU.
    set (o1 := put 2 (octets 2 n) out). assert (L1 : length o1 = length out) by (apply put_length; rewrite octets_length; lia).
    assert (F1 : Forall is_u8 o1) by (apply put_u8; [apply octets_u8|exact F]).
    pose proof (oct_u8 out 6 F) as U6. pose proof (oct_u8 out 7 F) as U7. unfold is_u8 in U6, U7. change (2^8) with 256 in *.
    assert (B6 : byte o1 6 = oct out 6) by (apply oct_put_out; rewrite octets_length; lia).
    assert (B7 : byte o1 7 = oct out 7) by (apply oct_put_out; rewrite octets_length; lia). rewrite B6, B7.
    set (x := oct out 6 - 64 * ((oct out 6 / 64) mod 2)).
    assert (XU : is_u8 x) by (unfold is_u8, x; change (2^8) with 256; lia).
    set (o2 := put 6 [x; oct out 7] o1). assert (L2 : length o2 = length out) by (unfold o2; rewrite put_length; [exact L1|cbn [length]; lia]).
    assert (F2 : Forall is_u8 o2) by (apply put_u8; [apply two_u8; [exact XU|apply oct_u8, F]|exact F1]).
    destruct (ip_csum_ok le o2 F2 ltac:(lia)) as (a & b & EQ & Ua & Ub & CK). rewrite EQ.
    set (o := put 10 [a; b] o2). assert (L3 : length o = length out) by (unfold o; rewrite put_length; [exact L2|cbn [length]; lia]).
    assert (O : forall i, (i < 2 \/ 4 <= i < 6 \/ 8 <= i < 10 \/ 12 <= i)%nat -> oct o i = oct out i).
    { intros i I. unfold o. rewrite oct_put_out by (cbn [length]; lia). unfold o2. rewrite oct_put_out by (cbn [length]; lia). unfold o1. apply oct_put_out; rewrite octets_length; lia. }
    assert (O2 : 256 * oct o 2 + oct o 3 = n).
    { unfold o. rewrite !oct_put_out by (cbn [length]; lia). unfold o2. rewrite !oct_put_out by (cbn [length]; lia). unfold o1.
      rewrite !oct_put_in by (rewrite octets_length; lia). change (nth (2 - 2) (octets 2 n) 0) with (octet 2 n 0). change (nth (3 - 2) (octets 2 n) 0) with (octet 2 n 1).
      rewrite octet2_word. apply Z.mod_small. lia. }
    assert (O6 : oct o 6 = x /\ oct o 7 = oct out 7).
    { unfold o. rewrite !oct_put_out by (cbn [length]; lia). unfold o2. rewrite !oct_put_in by (cbn [length]; lia). split; reflexivity. }
    destruct O6 as [O6 O7].
    split; [exact L3|]. split; [apply put_u8; [apply two_u8; assumption|exact F2]|]. split.
    { unfold o. rewrite skipn_put by (cbn [length]; lia). unfold o2. rewrite skipn_put by (cbn [length]; lia). unfold o1. apply skipn_put; rewrite octets_length; lia. }
    assert (FD : forall q w, (12 <= q)%nat -> field o q w = field out q w).
    { intros q w Q. unfold o. rewrite field_put_after by (cbn [length]; lia). unfold o2. rewrite field_put_after by (cbn [length]; lia). unfold o1. apply field_put_after; rewrite octets_length; lia. }
    unfold ipv4_header, df_set, fr4_more, fr4_offset, word in *. cbn [Nat.add] in *. rewrite !FD by lia. rewrite O6, O7, O2, !O by lia.
    split; [exact H1|]. split; [exact H2|]. split; [reflexivity|]. split; [exact H4|]. unfold x.
    split; [lia|]. split; [split; [lia|intros [_ Q]; congruence]|]. split; [rewrite <- H7; split; lia|]. split; [rewrite <- H8; lia|].
    split; [exact H9|]. split; [exact H10|]. split; [exact H11|]. split; [exact H12|]. exact CK.
Qed.

Lemma ipv4_firstn m n tos len id df more off ttl proto src dst : (20 <= n)%nat ->
  (ipv4_header (firstn n m) 0 tos len id df more off ttl proto src dst <-> ipv4_header m 0 tos len id df more off ttl proto src dst).
Proof.
  intros N. unfold ipv4_header, df_set, fr4_more, fr4_offset, word. cbn [Nat.add skipn]. rewrite firstn_firstn, Nat.min_l by lia. rewrite !oct_firstn, !field_firstn by lia. tauto.
Qed.
Lemma ipv4_same m m' tos len id df more off ttl proto src dst : firstn 20 m = firstn 20 m' ->
  ipv4_header m 0 tos len id df more off ttl proto src dst -> ipv4_header m' 0 tos len id df more off ttl proto src dst.
Proof. intros E H. apply (ipv4_firstn m' 20); [lia|]. rewrite <- E. apply ipv4_firstn; [lia|exact H]. Qed.
Lemma ipv6_firstn_iff m n tc len nh hl src dst : (40 <= n)%nat -> (ipv6_header (firstn n m) 0 tc len nh hl src dst <-> ipv6_header m 0 tc len nh hl src dst).
Proof. intros N. unfold ipv6_header, tclass, word. cbn [Nat.add]. rewrite !oct_firstn, !field_firstn by lia. tauto. Qed.
Lemma ipv6_same m m' tc len nh hl src dst : firstn 40 m = firstn 40 m' -> ipv6_header m 0 tc len nh hl src dst -> ipv6_header m' 0 tc len nh hl src dst.
Proof. intros E H. apply (ipv6_firstn_iff m' 40); [lia|]. rewrite <- E. apply ipv6_firstn_iff; [lia|exact H]. Qed.
Lemma firstn_put_before n k (v o : list Z) : (n <= k)%nat -> (k + length v <= length o)%nat -> firstn n (put k v o) = firstn n o.
Proof. intros N L. unfold put. rewrite firstn_app, firstn_firstn, firstn_length, Nat.min_l by lia. replace (n - Nat.min k (length o))%nat with 0%nat by lia. apply app_nil_r. Qed.
Lemma firstn_app_ge n (a b : list Z) : (n <= length a)%nat -> firstn n (a ++ b) = firstn n a.
Proof. intros L. rewrite firstn_app. replace (n - length a)%nat with 0%nat by lia. apply app_nil_r. Qed.
Lemma ff n k (m : list Z) : (n <= k)%nat -> firstn n (firstn k m) = firstn n m.
Proof. intros L. rewrite firstn_firstn, Nat.min_l by lia. reflexivity. Qed.
Lemma firstn_u8 n m : Forall is_u8 m -> Forall is_u8 (firstn n m).
Proof. intros F. rewrite <- (firstn_skipn n m) in F. apply Forall_app in F. tauto. Qed.
Lemma skipn_u8 n m : Forall is_u8 m -> Forall is_u8 (skipn n m).
Proof. intros F. rewrite <- (firstn_skipn n m) in F. apply Forall_app in F. tauto. Qed.
Lemma repeat_u8 n : Forall is_u8 (repeat 0 n).
Proof. induction n; constructor; [unfold is_u8; lia|assumption]. Qed.
Lemma u8_id x : 0 <= x < 256 -> u8 x = x.
Proof. intros. unfold u8. change (2^8) with 256. apply Z.mod_small. lia. Qed.

(** What handle_icmp_extension leaves behind the headers *)
Inductive ext_result (unit max : Z) (force : bool) (ipl P hin delta : Z) (hout : nat) (inp out : list Z) : Z -> list Z -> Prop :=
| er_none : ipl = 0 \/ ipl = P -> ext_result unit max force ipl P hin delta hout inp out 0 out
| er_removed n : 0 < ipl < P -> force = true \/ max - Z.of_nat hout - 128 < P - ipl -> Z.of_nat n = Z.min (delta + ipl) (max - Z.of_nat hout) ->
    ext_result unit max force ipl P hin delta hout inp out 0 (firstn (hout + n) out)
| er_kept f k pad : 0 < ipl < P -> force = false -> P - ipl <= max - Z.of_nat hout - 128 -> Z.of_nat k + Z.of_nat pad = unit * f -> 128 <= unit * f -> 0 < f < 256 ->
    (pad = 0%nat \/ (k + pad = 128)%nat) -> Z.of_nat k <= delta + ipl ->
    Z.of_nat k <= Z.min (delta + P) (max - Z.of_nat hout) - (P - ipl) < Z.of_nat k + unit ->
    ext_result unit max force ipl P hin delta hout inp out f (firstn (hout + k) out ++ repeat 0 pad ++ skipn (Z.to_nat (hin + ipl)) inp).

Lemma handle_spec max bits force ipl hin hout P delta inp out :
  bits = 2 \/ bits = 3 -> 0 <= hin -> Z.of_nat hout + 128 <= max <= 1280 -> max <= 255 * 2 ^ bits -> Z.of_nat (length inp) = hin + P -> 0 <= P -> hin + P < 65536 + 128 ->
  Z.of_nat (length out) = Z.of_nat hout + P + delta -> Z.of_nat (length out) < 65536 + 128 -> 0 <= ipl -> - ipl <= delta ->
  match handle_icmp_extension max bits force ipl hin (Z.of_nat hout) inp out with
  | XOk (f, o) => ext_result (2 ^ bits) max force ipl P hin delta hout inp out f o
  | XDrop j => j = J_ICMPEXT_BIG /\ P < ipl
  | _ => False
  end.
Proof.
  intros Hb Hh Hm Hm2 Li Hp Hi Lo Lo2 Hipl Hd. rewrite (handle_cases max bits force ipl hin (Z.of_nat hout) P inp out) by lia.
  destruct ((ipl =? 0) || (ipl =? P)) eqn:E1; [apply er_none; lia|]. destruct (P <? ipl) eqn:E2; [split; [reflexivity|lia]|]. cbv zeta.
  destruct (force || (max - Z.of_nat hout - 128 <? P - ipl)) eqn:E3.
  - set (n := Z.to_nat (Z.min (delta + ipl) (max - Z.of_nat hout))).
    replace (Z.to_nat (Z.min (Z.of_nat (length out) - (P - ipl)) max)) with (hout + n)%nat by (unfold n; lia).
    apply er_removed; [lia|destruct force; lia|unfold n; lia].
  - apply orb_false_iff in E3. destruct E3 as [FE E3]. set (k := kept max bits (Z.of_nat hout) out (P - ipl)).
    assert (U : 2 ^ bits = 4 \/ 2 ^ bits = 8) by (destruct Hb as [->| ->]; [left|right]; reflexivity).
    assert (K : 0 <= k /\ k <= Z.min (Z.of_nat (length out)) max - (P - ipl) - Z.of_nat hout < k + 2 ^ bits /\ k mod 2 ^ bits = 0).
    { unfold k, kept. destruct U as [->| ->]; lia. }
    set (pad := Z.max 0 (128 - k)).
    replace (Z.to_nat (Z.of_nat hout + k)) with (hout + Z.to_nat k)%nat by lia.
    assert (PD : 0 <= pad /\ 128 <= k + pad /\ (pad = 0 \/ k + pad = 128) /\ (k + pad) mod 2 ^ bits = 0).
    { unfold pad. destruct (Z.max_spec 0 (128 - k)) as [[Q ->]|[Q ->]]; (split; [lia|]; split; [lia|]; split; [lia|]).
      - replace (k + (128 - k)) with 128 by lia. destruct U as [->| ->]; reflexivity.
      - rewrite Z.add_0_r. apply K. }
    assert (KB : k + pad <= max) by lia. clearbody k pad.
    assert (FB : 0 < (k + pad) / 2 ^ bits < 256 /\ k + pad = 2 ^ bits * ((k + pad) / 2 ^ bits)) .
    { destruct PD as (P1 & P2 & P3 & P4). set (u := 2 ^ bits) in *. set (x := k + pad) in *. clearbody u x. clear - U P2 P4 KB Hm2. destruct U; subst u; lia. }
    apply er_kept; try lia; try assumption.
Qed.

Section result.
Context (unit max : Z) (force : bool) (ipl P hin delta : Z) (hout : nat) (inp out : list Z) (f : Z) (o : list Z).
Hypothesis (R : ext_result unit max force ipl P hin delta hout inp out f o).
Hypothesis (U : unit = 4 \/ unit = 8) (Hh : 0 <= hin) (Hm : Z.of_nat hout + 128 <= max <= 1280).
Hypothesis (Li : Z.of_nat (length inp) = hin + P) (Hp : 0 <= P) (Lo : Z.of_nat (length out) = Z.of_nat hout + P + delta).
Hypothesis (Hd : - ipl <= delta \/ ipl = 0 /\ -P <= delta) (Fi : Forall is_u8 inp) (Fo : Forall is_u8 out).

Lemma result_headers : firstn hout o = firstn hout out /\ (hout <= length o)%nat /\ Forall is_u8 o /\ 0 <= f < 256 /\ Z.of_nat (length o) <= Z.max (Z.of_nat (length out)) max.
Proof.
  destruct R as [C|n C1 C2 C3|g k pad C1 C2 C3 C4 C5 C6 C7 C8 C9].
  - split; [reflexivity|]. split; [lia|]. split; [exact Fo|]. lia.
  - split; [apply ff; lia|]. rewrite firstn_length. split; [lia|]. split; [apply firstn_u8, Fo|]. lia.
  - split; [rewrite firstn_app_ge by (rewrite firstn_length; lia); apply ff; lia|]. rewrite !app_length, firstn_length, repeat_length, skipn_length. split; [lia|].
    split; [|lia]. apply Forall_app. split; [apply firstn_u8, Fo|]. apply Forall_app. split; [apply repeat_u8|apply skipn_u8, Fi].
Qed.
(** [d]: the datagram as translated, without the extension *)
Lemma result_payload :
  (ipl = 0 \/ ipl = P -> f = 0 /\ o = out)
  /\ (0 < ipl < P ->
      let d := firstn (Z.to_nat (delta + ipl)) (skipn hout out) in
      Z.of_nat (length o) <= max
      /\ (force = true \/ max - Z.of_nat hout - 128 < P - ipl -> f = 0 /\ skipn hout o = firstn (Z.to_nat (max - Z.of_nat hout)) d)
      /\ (force = false -> P - ipl <= max - Z.of_nat hout - 128 ->
          Z.min (Z.of_nat (length out)) max - unit < Z.of_nat (length o)
          /\ exists d', cut_padded d d' /\ extended unit f hout o d' (skipn (Z.to_nat (hin + ipl)) inp))).
Proof.
  assert (SF : forall n, (hout <= length out)%nat -> skipn hout (firstn (hout + n) out) = firstn n (skipn hout out)).
  { intros n L. rewrite skipn_firstn_comm. f_equal. lia. }
  destruct R as [C|n C1 C2 C3|g k pad C1 C2 C3 C4 C5 C6 C7 C8 C9].
  - split; [split; reflexivity|]. lia.
  - split; [lia|]. intros _. cbv zeta. rewrite firstn_length. split; [lia|]. split; [|intros -> B; destruct C2; [discriminate|lia]].
    intros _. split; [reflexivity|]. rewrite SF by lia. rewrite firstn_firstn. f_equal. lia.
  - split; [lia|]. intros _. cbv zeta. rewrite !app_length, firstn_length, repeat_length, skipn_length. split; [lia|]. split; [intros [Q|Q]; [congruence|lia]|].
    intros _ _. split; [lia|]. exists (firstn k (skipn hout out) ++ repeat 0 pad). split.
    + exists k, pad. rewrite ff by lia. reflexivity.
    + unfold extended. rewrite skipn_app, skipn_app, firstn_length, repeat_length. replace (hout - Nat.min (hout + k) (length out))%nat with 0%nat by lia.
      cbn [Nat.sub skipn]. rewrite SF by lia. rewrite app_assoc. split; [reflexivity|].
      rewrite app_length, repeat_length, firstn_length, skipn_length. split; [lia|]. split; [lia|]. split; [lia|].
      intros N. apply (f_equal (@length Z)) in N. rewrite skipn_length in N. cbn [length] in N. lia.
Qed.
End result.

Lemma ipv6_put_len o x tc len nh hl src dst : (40 <= length o)%nat -> 0 <= x < 65536 -> ipv6_header o 0 tc len nh hl src dst -> ipv6_header (put 4 (octets 2 x) o) 0 tc x nh hl src dst.
Proof.
  intros L X H. unfold ipv6_header, tclass, word in *. cbn [Nat.add] in *.
  rewrite !field_put_after by (rewrite octets_length; lia).
  rewrite (oct_put_out 4 (octets 2 x) o 0), (oct_put_out 4 (octets 2 x) o 1), (oct_put_out 4 (octets 2 x) o 2), (oct_put_out 4 (octets 2 x) o 3),
    (oct_put_out 4 (octets 2 x) o 6), (oct_put_out 4 (octets 2 x) o 7) by (rewrite octets_length; lia).
  rewrite (oct_put_in 4 (octets 2 x) o 4), (oct_put_in 4 (octets 2 x) o 5) by (rewrite octets_length; lia).
  destruct H as (H1 & H2 & H3 & H4 & H5 & H6). split; [exact H1|]. split; [exact H2|]. split; [exact H3|]. split; [exact H4|]. split; [|exact H6].
  change (nth (4 - 4) (octets 2 x) 0) with (octet 2 x 0). change (nth (5 - 4) (octets 2 x) 0) with (octet 2 x 1). rewrite octet2_word. apply Z.mod_small. exact X.
Qed.
Lemma u8_one x : Forall is_u8 [u8 x].
Proof. apply Forall_cons; [|constructor]. unfold is_u8, u8. apply Z.mod_pos_bound. lia. Qed.
Lemma skipn_plus a b (l : list Z) : skipn (b + a) l = skipn a (skipn b l).
Proof. revert l. induction b as [|b IH]; intros l; [reflexivity|]. destruct l; [cbn; rewrite skipn_nil; reflexivity|apply IH]. Qed.
