(** C41: ICMP extensions, and the size of ICMP errors. *)
Require Import Verif.Base Verif.Csum_Model Verif.Csum_Spec Verif.Csum_Proofs Verif.Pkt_Model Verif.Pkt_Spec Verif.Pkt_Proofs
  Verif.Hdr_Model Verif.Hdr_Spec Verif.Hdr_Proofs Verif.Ext_Model Verif.Ext_Spec Verif.Ext_Proofs.
Local Ltac Zify.zify_post_hook ::= Z.div_mod_to_equations.

(** C41, 6->4. The ICMPv6 header is at [l4] of [inp], followed by [P] octets.
    [out] is the same with both IP headers and the ICMP header translated: the
    inner IPv6 headers took [l3] octets, and take 20 now. The length attribute,
    if any, covers the inner IPv6 headers (without this, see
    C41_64_refuted). *)
Theorem C41_64_partial : forall le l4 inp out P l3 tos len id df more off ttl proto src dst,
  Forall is_u8 inp -> Forall is_u8 out -> (length inp = l4 + 8 + P)%nat -> (length out + l3 = 48 + P)%nat ->
  Z.of_nat (length inp) < 65536 + 40 -> Z.of_nat (length out) < 65536 -> (l3 <= P)%nat ->
  let ipl := 8 * oct inp (l4 + 4) in
  (ipl <> 0 -> Z.of_nat l3 <= ipl) ->
  ipv4_header out 0 tos len id df more off ttl proto src dst ->
  match handle_icmp4_extension le l4 inp out with
  | XOk o =>
      let iel := Z.of_nat P - ipl in
      (* The headers agree with the new length, and change in nothing else *)
      ipv4_header o 0 tos (Z.of_nat (length o)) id (df /\ len = Z.of_nat (length o)) more off ttl proto src dst
      /\ (forall i, (20 <= i < 28)%nat -> i <> 25%nat -> oct o i = oct out i)
      (* No extension: no length attribute, and the payload stays *)
      /\ (ipl = 0 \/ iel = 0 -> oct o 25 = 0 /\ skipn 28 o = skipn 28 out)
      (* Extension *)
      /\ (0 < ipl -> 0 < iel ->
          let d := firstn (Z.to_nat (20 + ipl - Z.of_nat l3)) (skipn 28 out) in
          Z.of_nat (length o) <= 576
          /\ (iel <= 576 - 28 - 128 ->
              Z.min (Z.of_nat (length out)) 576 - 4 < Z.of_nat (length o)
              /\ exists d', cut_padded d d' /\ extended 4 (oct o 25) 28 o d' (skipn (Z.to_nat (Z.of_nat l4 + 8 + ipl)) inp))
          /\ (576 - 28 - 128 < iel -> oct o 25 = 0 /\ skipn 28 o = firstn (576 - 28) d))
  | XDrop j => j = J_ICMPEXT_BIG /\ Z.of_nat P < ipl
  | _ => False
  end.
Proof.
  intros le l4 inp out P l3 tos len id df more off ttl proto src dst Fi Fo Li Lo Bi Bo L3 ipl HL H.
  pose proof (oct_u8 inp (l4 + 4) Fi) as UL. unfold is_u8 in UL. change (2^8) with 256 in UL. cbv zeta.
  unfold handle_icmp4_extension. change (byte inp (l4 + 4)) with (oct inp (l4 + 4)). fold ipl. change 28 with (Z.of_nat 28).
  destruct (Z.eq_dec ipl 0) as [Z0|Z0].
  { unfold handle_icmp_extension. cbv zeta. rewrite Z0, Z.eqb_refl. cbn [xbind].
    set (o1 := put 25 [u8 0] out). assert (L1 : length o1 = length out) by (apply put_length; cbn [length]; lia).
    destruct (update_length_spec le o1 tos len id df more off ttl proto src dst) as (Q1 & Q2 & Q3 & Q4);
      [apply put_u8; [apply u8_one|exact Fo]|lia|lia|refine (ipv4_same out _ _ _ _ _ _ _ _ _ _ _ _ H); symmetry; apply firstn_put_before; [lia|cbn [length]; lia]|].
    cbv zeta in Q1, Q2, Q3, Q4. set (o := update_total_length le o1) in *.
    assert (SK : forall i, (20 <= i)%nat -> oct o i = oct o1 i).
    { intros i I. unfold oct. replace i with (20 + (i - 20))%nat by lia. rewrite <- !nth_skipn_add, Q3. reflexivity. }
    split; [rewrite Q1; exact Q4|]. split; [intros i I I'; rewrite SK by lia; apply oct_put_out; cbn [length]; lia|].
    split; [intros _; split; [rewrite SK by lia; unfold o1; rewrite oct_put_in by (cbn [length]; lia); reflexivity|]|lia].
    change 28%nat with (20 + 8)%nat. rewrite skipn_plus, Q3, <- skipn_plus. apply skipn_put; cbn [length]; lia. }
  specialize (HL Z0).
  assert (HS := handle_spec 576 2 false ipl (Z.of_nat l4 + 8) 28 (Z.of_nat P) (20 - Z.of_nat l3) inp out).
  destruct (handle_icmp_extension 576 2 false ipl (Z.of_nat l4 + 8) (Z.of_nat 28) inp out) as [[f o1]|j|j e inf|]; cbn [xbind];
    [assert (R := HS ltac:(lia) ltac:(lia) ltac:(lia) ltac:(lia) ltac:(lia) ltac:(lia) ltac:(lia) ltac:(lia) ltac:(lia) ltac:(lia) ltac:(lia))
    |exact (HS ltac:(lia) ltac:(lia) ltac:(lia) ltac:(lia) ltac:(lia) ltac:(lia) ltac:(lia) ltac:(lia) ltac:(lia) ltac:(lia) ltac:(lia))
    |apply HS; lia|apply HS; lia].
  change (2 ^ 2) with 4 in R.
  destruct (result_headers 4 576 false ipl (Z.of_nat P) (Z.of_nat l4 + 8) (20 - Z.of_nat l3) 28 inp out f o1 R) as (R1 & R2 & R3 & R4 & R5); try lia; try assumption.
  destruct (result_payload 4 576 false ipl (Z.of_nat P) (Z.of_nat l4 + 8) (20 - Z.of_nat l3) 28 inp out f o1 R) as (R6 & R7); try lia; try assumption.
  set (o2 := put 25 [u8 f] o1). assert (L1 : length o2 = length o1) by (apply put_length; cbn [length]; lia).
  assert (HH : firstn 20 out = firstn 20 o2).
  { unfold o2. rewrite firstn_put_before by (cbn [length]; lia). rewrite <- (ff 20 28 o1), <- (ff 20 28 out), R1 by lia. reflexivity. }
  destruct (update_length_spec le o2 tos len id df more off ttl proto src dst) as (Q1 & Q2 & Q3 & Q4);
    [apply put_u8; [apply u8_one|exact R3]|lia|lia|exact (ipv4_same _ _ _ _ _ _ _ _ _ _ _ _ HH H)|].
  cbv zeta in Q1, Q2, Q3, Q4. set (o := update_total_length le o2) in *.
  assert (SK : forall i, (20 <= i)%nat -> oct o i = oct o2 i).
  { intros i I. unfold oct. replace i with (20 + (i - 20))%nat by lia. rewrite <- !nth_skipn_add, Q3. reflexivity. }
  assert (O25 : oct o 25 = f) by (rewrite SK by lia; unfold o2; rewrite oct_put_in by (cbn [length]; lia); cbn [nth Nat.sub]; apply u8_id; lia).
  assert (S28 : skipn 28 o = skipn 28 o1).
  { change 28%nat with (20 + 8)%nat. rewrite skipn_plus, Q3, <- skipn_plus. apply skipn_put; cbn [length]; lia. }
  rewrite O25, S28, Q1, L1 in *. split; [exact Q4|].
  split; [intros i I I'; rewrite SK by lia; unfold o2; rewrite oct_put_out by (cbn [length]; lia); rewrite <- (oct_firstn 28 o1), R1, oct_firstn by lia; reflexivity|].
  split; [intros C; destruct R6 as [-> ->]; [lia|]; split; reflexivity|].
  intros I1 I2. destruct R7 as (A & B & C); [lia|]. split; [exact A|].
  replace (20 + ipl - Z.of_nat l3) with (20 - Z.of_nat l3 + ipl) by lia. change (Z.of_nat 28) with 28 in *.
  split.
  - intros I3. destruct C as (C1 & d' & C2 & C3); [reflexivity|lia|]. split; [exact C1|]. exists d'. split; [exact C2|].
    unfold extended in *. rewrite S28. exact C3.
  - intros I3. destruct B as (B1 & B2); [right; lia|]. split; [exact B1|]. exact B2.
Qed.
Print Assumptions C41_64_partial.

(** C41, 4->6. The ICMPv4 header is at [l4] of [inp], followed by [P] octets.
    [out] is the same with both IP headers and the ICMP header translated: the
    inner IPv4 header took [l3] octets, the inner IPv6 headers take [l3']. In
    ICMPv6, only Destination Unreachable and Time Exceeded have a length
    attribute (RFC 4884 section 4). *)
Theorem C41_46_partial : forall l4 inp out P l3 l3' type' code' tc len nh hops src dst,
  Forall is_u8 inp -> Forall is_u8 out -> (length inp = l4 + 8 + P)%nat -> (length out + l3 = 48 + l3' + P)%nat ->
  Z.of_nat (length inp) < 65536 -> Z.of_nat (length out) < 65536 + 40 -> (l3 <= P)%nat ->
  let ipl := 4 * oct inp (l4 + 5) in
  (ipl <> 0 -> Z.of_nat l3 <= ipl) ->
  In (oct inp l4) [3; 11; 12] -> becomes rules46 (oct inp l4) (oct inp (l4 + 1)) type' code' ->
  ipv6_header out 0 tc len nh hops src dst ->
  match handle_icmp6_extension l4 inp out with
  | XOk o =>
      let iel := Z.of_nat P - ipl in
      ipv6_header o 0 tc (Z.of_nat (length o) - 40) nh hops src dst
      /\ (forall i, (40 <= i < 48)%nat -> i <> 44%nat -> oct o i = oct out i)
      /\ (ipl = 0 \/ iel = 0 -> oct o 44 = 0 /\ skipn 48 o = skipn 48 out)
      /\ (0 < ipl -> 0 < iel ->
          let d := firstn (Z.to_nat (Z.of_nat l3' + ipl - Z.of_nat l3)) (skipn 48 out) in
          Z.of_nat (length o) <= 1280
          /\ (In type' [1; 3] -> iel <= 1280 - 48 - 128 ->
              Z.min (Z.of_nat (length out)) 1280 - 8 < Z.of_nat (length o)
              /\ exists d', cut_padded d d' /\ extended 8 (oct o 44) 48 o d' (skipn (Z.to_nat (Z.of_nat l4 + 8 + ipl)) inp))
          /\ (~ In type' [1; 3] \/ 1280 - 48 - 128 < iel -> oct o 44 = 0 /\ skipn 48 o = firstn (1280 - 48) d))
  | XDrop j => j = J_ICMPEXT_BIG /\ Z.of_nat P < ipl
  | _ => False
  end.
Proof.
  intros l4 inp out P l3 l3' type' code' tc len nh hops src dst Fi Fo Li Lo Bi Bo L3 ipl HL HT HB H.
  pose proof (oct_u8 inp (l4 + 5) Fi) as UL. unfold is_u8 in UL. change (2^8) with 256 in UL. cbv zeta.
  unfold handle_icmp6_extension. change (byte inp) with (oct inp). fold ipl. change 48 with (Z.of_nat 48).
  set (force := should_remove_ie (oct inp l4) (oct inp (l4 + 1))).
  assert (FE : if (force : bool) then ~ In type' [1; 3] else In type' [1; 3]).
  { destruct HB as (lo & hi & n & HB & C & _). unfold force, should_remove_ie. destruct HT as [T|[T|[T|[]]]]; rewrite <- T in *.
    - destruct ((3 =? 3) && (oct inp (l4 + 1) =? 2) || (3 =? 3) && (oct inp (l4 + 1) =? 4) || (3 =? 12)) eqn:E; cbn in E;
        repeat (destruct HB as [HB|HB]; [try discriminate HB; injection HB as <- <- <- _; cbn [In]; lia|]); destruct HB.
    - cbn. repeat (destruct HB as [HB|HB]; [try discriminate HB; injection HB as <- <- <- _; cbn [In]; lia|]); destruct HB.
    - cbn. repeat (destruct HB as [HB|HB]; [try discriminate HB; injection HB as <- <- <- _; cbn [In]; lia|]); destruct HB. }
  clearbody force. clear HB HT.
  assert (FIN : forall f o1, 0 <= f < 256 -> (48 <= length o1)%nat -> Z.of_nat (length o1) < 65536 + 40 -> firstn 48 o1 = firstn 48 out ->
    let o := put 4 (octets 2 (u16 (Z.of_nat (length (put 44 [u8 f] o1)) - 40))) (put 44 [u8 f] o1) in
    length o = length o1 /\ ipv6_header o 0 tc (Z.of_nat (length o1) - 40) nh hops src dst
    /\ (forall i, (40 <= i < 48)%nat -> i <> 44%nat -> oct o i = oct out i) /\ oct o 44 = f /\ skipn 48 o = skipn 48 o1).
  { intros f o1 Bf L1 B1 HH. cbv zeta. set (o2 := put 44 [u8 f] o1). assert (L2 : length o2 = length o1) by (apply put_length; cbn [length]; lia).
    rewrite L2, u16_mod, Z.mod_small by lia.
    set (v := octets 2 _). assert (LV : length v = 2%nat) by apply octets_length.
    assert (H2 : firstn 40 out = firstn 40 o2).
    { unfold o2. rewrite firstn_put_before by (cbn [length]; lia). rewrite <- (ff 40 48 o1), <- (ff 40 48 out), HH by lia. reflexivity. }
    split; [rewrite put_length; lia|]. split; [apply (ipv6_put_len o2 _ tc len); [lia|lia|exact (ipv6_same _ _ _ _ _ _ _ _ H2 H)]|].
    split; [intros i I I'; rewrite oct_put_out by lia; unfold o2; rewrite oct_put_out by (cbn [length]; lia); rewrite <- (oct_firstn 48 o1), HH, oct_firstn by lia; reflexivity|].
    split; [rewrite oct_put_out by lia; unfold o2; rewrite oct_put_in by (cbn [length]; lia); cbn [nth Nat.sub]; apply u8_id; lia|].
    rewrite skipn_put by lia. unfold o2. apply skipn_put; cbn [length]; lia. }
  destruct (Z.eq_dec ipl 0) as [Z0|Z0].
  { unfold handle_icmp_extension. cbv zeta. rewrite Z0, Z.eqb_refl. cbn [xbind].
    destruct (FIN 0 out) as (Q1 & Q2 & Q3 & Q4 & Q5); [lia|lia|lia|reflexivity|]. rewrite Q1, Q4, Q5. split; [exact Q2|]. split; [exact Q3|]. split; [split; reflexivity|lia]. }
  specialize (HL Z0).
  assert (HS := handle_spec 1280 3 force ipl (Z.of_nat l4 + 8) 48 (Z.of_nat P) (Z.of_nat l3' - Z.of_nat l3) inp out).
  destruct (handle_icmp_extension 1280 3 force ipl (Z.of_nat l4 + 8) (Z.of_nat 48) inp out) as [[f o1]|j|j e inf|]; cbn [xbind];
    [assert (R := HS ltac:(lia) ltac:(lia) ltac:(lia) ltac:(lia) ltac:(lia) ltac:(lia) ltac:(lia) ltac:(lia) ltac:(lia) ltac:(lia) ltac:(lia))
    |exact (HS ltac:(lia) ltac:(lia) ltac:(lia) ltac:(lia) ltac:(lia) ltac:(lia) ltac:(lia) ltac:(lia) ltac:(lia) ltac:(lia) ltac:(lia))
    |apply HS; lia|apply HS; lia].
  change (2 ^ 3) with 8 in R.
  destruct (result_headers 8 1280 force ipl (Z.of_nat P) (Z.of_nat l4 + 8) (Z.of_nat l3' - Z.of_nat l3) 48 inp out f o1 R) as (R1 & R2 & R3 & R4 & R5); try lia; try assumption.
  destruct (result_payload 8 1280 force ipl (Z.of_nat P) (Z.of_nat l4 + 8) (Z.of_nat l3' - Z.of_nat l3) 48 inp out f o1 R) as (R6 & R7); try lia; try assumption.
  destruct (FIN f o1) as (Q1 & Q2 & Q3 & Q4 & Q5); [lia|lia|lia|exact R1|]. set (o := put 4 _ (put 44 [u8 f] o1)) in *. clearbody o.
  rewrite Q1, Q4, Q5. split; [exact Q2|]. split; [exact Q3|].
  split; [intros C; destruct R6 as [-> ->]; [lia|]; split; reflexivity|].
  intros I1 I2. destruct R7 as (A & B & C); [lia|]. split; [exact A|].
  replace (Z.of_nat l3' + ipl - Z.of_nat l3) with (Z.of_nat l3' - Z.of_nat l3 + ipl) by lia.
  split.
  - intros KT I3. destruct C as (C1 & d' & C2 & C3); [destruct force; [contradiction|reflexivity]|lia|]. split; [exact C1|]. exists d'. split; [exact C2|].
    unfold extended in *. rewrite Q5. exact C3.
  - intros I3. destruct B as (B1 & B2); [destruct force; [left; reflexivity|right; destruct I3; [contradiction|lia]]|]. split; [exact B1|]. exact B2.
Qed.
Print Assumptions C41_46_partial.

(** Trimming: at most 576 (1280) octets, the first ones, and the IP header
    agrees with the length. *)
Theorem C41_trim_64 : forall le out tos len id df more off ttl proto src dst,
  Forall is_u8 out -> (20 <= length out)%nat -> ipv4_header out 0 tos len id df more off ttl proto src dst -> len = Z.of_nat (length out) ->
  let o := trim_576 le out in
  length o = Nat.min (length out) 576 /\ skipn 20 o = skipn 20 (firstn 576 out)
  /\ ipv4_header o 0 tos (Z.of_nat (length o)) id (df /\ (length out <= 576)%nat) more off ttl proto src dst.
Proof.
  intros le out tos len id df more off ttl proto src dst F L H E. unfold trim_576. cbv zeta.
  destruct (length out <=? 576)%nat eqn:C; [apply Nat.leb_le in C|apply Nat.leb_gt in C].
  - rewrite firstn_all2 by lia. split; [lia|]. split; [reflexivity|]. rewrite <- E.
    destruct H as (H1 & H2 & H3 & H4 & H5 & H6 & H7). unfold ipv4_header. cbn [Nat.add] in *. split; [exact H1|]. split; [exact H2|]. split; [exact H3|].
    split; [exact H4|]. split; [exact H5|]. split; [rewrite H6; tauto|exact H7].
  - assert (LF : length (firstn 576 out) = 576%nat) by (rewrite firstn_length; lia).
    destruct (update_length_spec le (firstn 576 out) tos len id df more off ttl proto src dst) as (Q1 & Q2 & Q3 & Q4);
      [apply firstn_u8, F|lia|lia|apply ipv4_firstn; [lia|exact H]|]. cbv zeta in *. rewrite Q1, LF in *. split; [lia|]. split; [exact Q3|].
    destruct Q4 as (H1 & H2 & H3 & H4 & H5 & H6 & H7). unfold ipv4_header. cbn [Nat.add] in *. split; [exact H1|]. split; [exact H2|]. split; [exact H3|].
    split; [exact H4|]. split; [exact H5|]. split; [|exact H7]. rewrite H6. split; intros [D1 D2]; split; lia || assumption.
Qed.
Print Assumptions C41_trim_64.
Theorem C41_trim_46 : forall out tc len nh hops src dst,
  (40 <= length out)%nat -> ipv6_header out 0 tc len nh hops src dst -> len = Z.of_nat (length out) - 40 ->
  let o := trim_1280 out in
  length o = Nat.min (length out) 1280 /\ skipn 40 o = skipn 40 (firstn 1280 out)
  /\ ipv6_header o 0 tc (Z.of_nat (length o) - 40) nh hops src dst.
Proof.
  intros out tc len nh hops src dst L H E. unfold trim_1280. cbv zeta.
  destruct (length out <=? 1280)%nat eqn:C; [apply Nat.leb_le in C|apply Nat.leb_gt in C].
  - rewrite firstn_all2 by lia. split; [lia|]. split; [reflexivity|]. rewrite <- E. exact H.
  - assert (LF : length (firstn 1280 out) = 1280%nat) by (rewrite firstn_length; lia). rewrite LF.
    rewrite u16_mod, Z.mod_small by lia. rewrite put_length by (rewrite octets_length; lia). rewrite LF. split; [lia|].
    split; [apply skipn_put; rewrite octets_length; lia|]. apply (ipv6_put_len _ _ tc len); [lia|lia|]. apply ipv6_firstn_iff; [lia|exact H].
Qed.
Print Assumptions C41_trim_46.

Local Ltac hdr4 := unfold ipv4_header;
  repeat lazymatch goal with
  | |- _ /\ _ => split
  | |- checks _ => split
  | |- _ <> _ => vm_compute; discriminate
  | |- _ <-> True => split; [intros _; exact I|intros _; vm_compute; reflexivity]
  | |- _ <-> False => split; [intros X; vm_compute in X; discriminate X|contradiction]
  | |- _ => vm_compute; reflexivity
  end.
(** An error with a datagram of 128 octets and an extension of 8: after the
    translation of the inner header the datagram is shorter, so it is padded. *)
Definition ex64_in : list Z := repeat 0 40 ++ [1;0;0;0; 16;0;0;0] ++ repeat 5 128 ++ [32;0;1;2; 0;4;9;9].
Definition ex64_out : list Z := [69; 0; 0; 144; 0; 0; 64; 0; 64; 1; 182; 105; 192; 0; 2; 1; 192; 0; 2; 2]
  ++ [3;1;0;0; 0;0;0;0] ++ repeat 6 20 ++ repeat 5 88 ++ [32;0;1;2; 0;4;9;9].
Example C41_64_example :
  (length ex64_in = 40 + 8 + 136)%nat /\ (length ex64_out + 40 = 48 + 136)%nat
  /\ ipv4_header ex64_out 0 0 144 0 True False 0 64 1 (field ex64_out 12 4) (field ex64_out 16 4)
  /\ exists o, handle_icmp4_extension true 40 ex64_in ex64_out = XOk o /\ oct o 25 = 32 /\ word o 2 = 164
     /\ skipn 28 o = repeat 6 20 ++ repeat 5 88 ++ repeat 0 20 ++ [32;0;1;2; 0;4;9;9].
Proof.
  split; [reflexivity|]. split; [reflexivity|]. split.
  - hdr4.
  - eexists. split; [vm_compute; reflexivity|]. repeat split; vm_compute; reflexivity.
Qed.
Definition ex46_in : list Z := repeat 0 20 ++ [11;0;0;0; 0;32;0;0] ++ repeat 5 128 ++ [32;0;1;2; 0;4;9;9].
Definition ex46_out : list Z := [96;0;0;0; 0;164;58;64] ++ repeat 1 16 ++ repeat 2 16
  ++ [3;0;0;0; 0;0;0;0] ++ repeat 6 40 ++ repeat 5 108 ++ [32;0;1;2; 0;4;9;9].
Example C41_46_example :
  (length ex46_in = 20 + 8 + 136)%nat /\ (length ex46_out + 20 = 48 + 40 + 136)%nat
  /\ ipv6_header ex46_out 0 0 164 58 64 (field ex46_out 8 16) (field ex46_out 24 16)
  /\ exists o, handle_icmp6_extension 20 ex46_in ex46_out = XOk o /\ oct o 44 = 18 /\ word o 4 = 160
     /\ skipn 48 o = repeat 6 40 ++ repeat 5 104 ++ [32;0;1;2; 0;4;9;9].
Proof.
  split; [reflexivity|]. split; [reflexivity|]. split; [repeat split|].
  eexists. split; [vm_compute; reflexivity|]. repeat split; vm_compute; reflexivity.
Qed.
Example C41_trim_example : length (trim_576 true (ex64_out ++ repeat 7 1000)) = 576%nat /\ length (trim_1280 (ex46_out ++ repeat 7 2000)) = 1280%nat.
Proof. split; vm_compute; reflexivity. Qed.

(** C41 is false: a length attribute that ends inside the inner IP header. The
    lengths of the datagram underflow, and the copy runs over the whole memory.
    Here: an ICMPv6 Destination Unreachable with length attribute 1 (8 octets)
    and 48 octets of payload, an IPv6 header and 8 octets. *)
Theorem C41_64_refuted : exists le l4 inp out P tos len id df more off ttl proto src dst,
  Forall is_u8 inp /\ Forall is_u8 out /\ (length inp = l4 + 8 + P)%nat /\ (length out + 40 = 48 + P)%nat /\ (40 <= P)%nat
  /\ ipv4_header out 0 tos len id df more off ttl proto src dst
  /\ handle_icmp4_extension le l4 inp out = XUB.
Proof.
  exists true, 40%nat, (repeat 0 40 ++ [1;0;0;0; 1;0;0;0] ++ repeat 5 48), (firstn 56 ex64_out), 48%nat, 0, 144, 0, True, False, 0, 64, 1, (field ex64_out 12 4), (field ex64_out 16 4).
  split; [apply Forall_forall; intros x X; vm_compute in X; unfold is_u8; change (2^8) with 256; repeat (destruct X as [X|X]; [lia|]); destruct X|].
  split; [apply Forall_forall; intros x X; vm_compute in X; unfold is_u8; change (2^8) with 256; repeat (destruct X as [X|X]; [lia|]); destruct X|].
  split; [reflexivity|]. split; [reflexivity|]. split; [lia|]. split.
  - hdr4.
  - vm_compute. reflexivity.
Qed.
Print Assumptions C41_64_refuted.
(** Likewise 4->6: the length attribute 1 (4 octets), an inner IPv4 header with
    40 octets of options. *)
Theorem C41_46_refuted : exists l4 inp out P tc len nh hops src dst,
  Forall is_u8 inp /\ Forall is_u8 out /\ (length inp = l4 + 8 + P)%nat /\ (length out + 60 = 48 + 40 + P)%nat /\ (60 <= P)%nat
  /\ becomes rules46 (oct inp l4) (oct inp (l4 + 1)) (oct out 40) (oct out 41)
  /\ ipv6_header out 0 tc len nh hops src dst
  /\ handle_icmp6_extension l4 inp out = XUB.
Proof.
  exists 20%nat, (repeat 0 20 ++ [11;0;0;0; 0;1;0;0] ++ repeat 5 68), (firstn 96 ex46_out), 68%nat, 0, 164, 58, 64, (field ex46_out 8 16), (field ex46_out 24 16).
  split; [apply Forall_forall; intros x X; vm_compute in X; unfold is_u8; change (2^8) with 256; repeat (destruct X as [X|X]; [lia|]); destruct X|].
  split; [apply Forall_forall; intros x X; vm_compute in X; unfold is_u8; change (2^8) with 256; repeat (destruct X as [X|X]; [lia|]); destruct X|].
  split; [reflexivity|]. split; [reflexivity|]. split; [lia|]. split; [exists 0, 255, None; split; [cbn; tauto|split; [vm_compute; split; discriminate|reflexivity]]|].
  split; [repeat split|]. vm_compute. reflexivity.
Qed.
Print Assumptions C41_46_refuted.
