(** C34 - C38: ICMP headers, IP headers, fragments, MTUs.
    Octet strings: [Forall is_u8]. *)
Require Import Verif.Base Verif.Rtrie_Model Verif.Pool4_Model Verif.Csum_Model Verif.Csum_Spec Verif.Csum_Proofs.
Require Import Verif.Pkt_Model Verif.Pkt_Spec Verif.Pkt_Proofs Verif.Hdr_Model Verif.Hdr_Spec Verif.Hdr_Proofs.
Local Ltac Zify.zify_post_hook ::= Z.div_mod_to_equations.

(** ** C34 *)

(** ICMPv6 to ICMPv4: the header is translated exactly if there is a rule for its
    type and code and, for Parameter Problems, for its pointer; then type, code,
    pointer, identifier and sequence number are what the rules say. The rules
    leave no choice. (The checksum: C31. The MTU: C36.) *)
Theorem C34_64 : forall id im om h out, length h = 8%nat -> length out = 8%nat -> Forall is_u8 h ->
  match id with Some i => is_u16 i | None => True end ->
  match icmp64_header id im om h out with
  | XOk o => length o = 8%nat /\ becomes rules64 (oct h 0) (oct h 1) (oct o 0) (oct o 1)
      /\ (is_echo h -> word o 4 = match id with Some i => i | None => word h 4 end /\ word o 6 = word h 6)
      /\ (oct h 0 = 2 -> word o 4 = 0)
      /\ (oct h 0 = 4 -> oct h 1 = 0 -> points pointers64 (rest h) (oct o 4) /\ oct o 5 = 0 /\ word o 6 = 0)
      /\ (In (oct h 0) [1; 3] \/ oct h 0 = 4 /\ oct h 1 = 1 -> rest o = 0)
  | XDrop _ => (forall t c, ~ becomes rules64 (oct h 0) (oct h 1) t c)
      \/ (oct h 0 = 4 /\ oct h 1 = 0 /\ forall p, ~ points pointers64 (rest h) p)
  | _ => False
  end.
Proof.
  intros id im om h out L1 L2 F I. pose proof (icmp64_spec id im om h out L1 L2 F I) as S.
  destruct (icmp64_header id im om h out); try exact S.
  destruct S as (S1 & S2 & S3 & S4 & S5 & S6 & S7 & S8). split; [exact S1|]. split; [exact S3|]. split; [exact S5|]. split; [intros T; apply (S6 T)|]. split; assumption.
Qed.
Print Assumptions C34_64.

Theorem C34_46 : forall id ps im om tl h out, length h = 8%nat -> length out = 8%nat -> Forall is_u8 h ->
  match id with Some i => is_u16 i | None => True end ->
  match icmp46_header id ps im om tl h out with
  | XOk o => length o = 8%nat /\ becomes rules46 (oct h 0) (oct h 1) (oct o 0) (oct o 1)
      /\ (is_echo h -> word o 4 = match id with Some i => i | None => word h 4 end /\ word o 6 = word h 6)
      /\ (oct h 0 = 3 -> oct h 1 = 2 -> rest o = 6)
      /\ (oct h 0 = 12 -> points pointers46 (oct h 4) (rest o))
      /\ (oct h 0 = 11 \/ oct h 0 = 3 /\ oct h 1 <> 2 /\ oct h 1 <> 4 -> rest o = 0)
  | XDrop _ => (forall t c, ~ becomes rules46 (oct h 0) (oct h 1) t c)
      \/ (oct h 0 = 12 /\ forall p, ~ points pointers46 (oct h 4) p)
  | _ => False
  end.
Proof.
  intros id ps im om tl h out L1 L2 F I. pose proof (icmp46_spec id ps im om tl h out L1 L2 F I) as S.
  destruct (icmp46_header id ps im om tl h out); try exact S.
  destruct S as (S1 & S2 & S3 & S4 & S5 & S6 & S7 & S8 & S9). split; [exact S1|]. split; [exact S3|]. split; [exact S5|]. split; [exact S7|]. split; assumption.
Qed.
Print Assumptions C34_46.

(** The rules are functions. *)
Theorem C34_rules : (forall t c t1 c1 t2 c2, becomes rules64 t c t1 c1 -> becomes rules64 t c t2 c2 -> t1 = t2 /\ c1 = c2)
  /\ (forall t c t1 c1 t2 c2, becomes rules46 t c t1 c1 -> becomes rules46 t c t2 c2 -> t1 = t2 /\ c1 = c2)
  /\ (forall p a b, points pointers64 p a -> points pointers64 p b -> a = b) /\ (forall p a b, points pointers46 p a -> points pointers46 p b -> a = b).
Proof.
  split; [|split; [|split]].
  - intros t c t1 c1 t2 c2 A B. apply (applied_becomes rules64 t c t1 c1 disjoint64) in A. apply (applied_becomes rules64 t c t2 c2 disjoint64) in B. rewrite A in B. inversion B. tauto.
  - intros t c t1 c1 t2 c2 A B. apply (applied_becomes rules46 t c t1 c1 disjoint46) in A. apply (applied_becomes rules46 t c t2 c2 disjoint46) in B. rewrite A in B. inversion B. tauto.
  - intros p a b (l1 & h1 & I1 & P1) (l2 & h2 & I2 & P2). cbn [In pointers64] in I1, I2. intuition (repeat match goal with X : (_, _) = (_, _) |- _ => inversion X; clear X end; lia).
  - intros p a b (l1 & h1 & I1 & P1) (l2 & h2 & I2 & P2). cbn [In pointers46] in I1, I2. intuition (repeat match goal with X : (_, _) = (_, _) |- _ => inversion X; clear X end; lia).
Qed.
Print Assumptions C34_rules.

(** Parameter Problem about the hop limit; echo request; an unknown type;
    Parameter Problem about the flow label. *)
Example C34_example64 :
  icmp64_header None None None [4;0;1;2; 0;0;0;7] (repeat 9 8) = XOk [12;0;1;2; 8;0;0;0]
  /\ icmp64_header (Some 4660) None None [128;0;1;2; 0;7;0;1] (repeat 9 8) = XOk [8;0;1;2; 18;52;0;1]
  /\ icmp64_header None None None [133;0;1;2; 0;0;0;0] (repeat 9 8) = XDrop J_UNKNOWN_ICMP6_TYPE
  /\ (exists j, icmp64_header None None None [4;0;1;2; 0;0;0;2] (repeat 9 8) = XDrop j).
Proof. split; [vm_compute; reflexivity|]. split; [vm_compute; reflexivity|]. split; [vm_compute; reflexivity|]. eexists. vm_compute. reflexivity. Qed.
Example C34_example46 :
  icmp46_header None [] None None 0 [3;2;1;2; 0;0;0;0] (repeat 9 8) = XOk [4;1;1;2; 0;0;0;6]
  /\ icmp46_header None [] None None 0 [12;0;1;2; 9;0;0;0] (repeat 9 8) = XOk [4;0;1;2; 0;0;0;6]
  /\ icmp46_header None [] None None 0 [5;0;1;2; 0;0;0;0] (repeat 9 8) = XDrop J_UNKNOWN_ICMP4_TYPE.
Proof. split; [vm_compute; reflexivity|]. split; vm_compute; reflexivity. Qed.

(** ** C35 *)

(** The slow path. [payload] is what follows the IPv4 header in the packet [m];
    [l3] and [l4] are the lengths of its headers; the sk_buff is one of a packet
    that is that long (a GSO packet carries at least one segment). The datagram,
    of which the packet may be a fragment, is a legal one. The fragments together
    are the payload, at the right offsets, and none is longer than the nexthop's
    MTU or lowest-ipv6-mtu. *)
Theorem C35_partial : forall nexthop lim err df frag sk l3 l4 mpl fuel reset hp s d lin m fresh payload r,
  plan46 nexthop lim err df frag sk (l3 + l4) l4 = XOk (SLOW mpl) ->
  slen sk = l3 + Z.of_nat (length payload) -> (flist sk = [] \/ headlen sk + fold_right Z.add 0 (flist sk) = slen sk) -> Forall (Z.le 0) (flist sk) ->
  0 <= headlen sk -> 20 <= l3 -> 0 <= l4 -> gso sk <= slen sk - (l3 + l4) -> l3 + l4 <= headlen sk -> lim < 4294967296 ->
  Forall is_u8 m -> Forall is_u8 payload -> (forall i, length (fresh i) = 48%nat) -> (forall i, Forall is_u8 (fresh i)) -> is_u128 s -> is_u128 d ->
  fr4_offset m 0 + Z.of_nat (length payload) <= 65515 ->
  ttp46_ipv6_external fuel reset hp s d lin m (allocate_slow fresh mpl payload) = XOk r ->
  series (if reset then 0 else oct m 1) (if hp then oct m 8 else oct m 8 - 1) s d (proto46 (oct m 9)) (word m 4) (fr4_more m 0) (fr4_offset m 0) payload r
  /\ Forall (fun o => Z.of_nat (length o) <= nexthop /\ Z.of_nat (length o) <= lim) r.
Proof.
  intros nexthop lim err df frag sk l3 l4 mpl fuel reset hp s d lin m fresh payload r P SL FL FP HL L3 L4 G HH LM F Fp Fr1 Fr2 Us Ud B X.
  assert (M : mpl = Z.min nexthop lim /\ 1280 <= mpl /\ mpl - 48 < Z.of_nat (length payload)).
  { unfold plan46 in P. cbv zeta in P. destruct (Z.min nexthop lim <? 1280) eqn:E1; [discriminate|]. destruct err; [discriminate|].
    assert (Q : fragment_exceeds_mtu46 sk frag (l3 + l4) l4 (Z.min nexthop lim) = true /\ mpl = Z.min nexthop lim).
    { destruct df; [destruct (fragment_exceeds_mtu46 sk frag (l3 + l4) l4 nexthop); discriminate|].
      destruct (fragment_exceeds_mtu46 sk frag (l3 + l4) l4 (Z.min nexthop lim)); [inversion P; tauto|discriminate]. }
    destruct Q as [Q ->]. split; [reflexivity|]. split; [lia|].
    unfold fragment_exceeds_mtu46 in Q. cbv zeta in Q. destruct (negb (gso sk =? 0)) eqn:GE.
    - destruct frag; lia.
    - destruct (flist sk) as [|a fl] eqn:FLE; [destruct frag; lia|]. destruct FL as [FL|FL]; [discriminate|].
      unfold get_frag_max_size in Q. rewrite FLE in Q.
      assert (K : forall l z T, Forall (Z.le 0) l -> z <= T + 48 -> fold_right Z.add 0 l <= T -> fold_left (fun mx x => Z.max mx (x + 48)) l z <= T + 48).
      { induction l as [|x l IH]; intros z T Fl A1 A2; cbn [fold_left]; [exact A1|]. inversion Fl; subst. cbn [fold_right] in A2.
        assert (0 <= fold_right Z.add 0 l) by (clear - H2; induction H2; cbn [fold_right]; lia). apply IH; [assumption|lia|lia]. }
      assert (SP : 0 <= fold_right Z.add 0 (a :: fl)) by (clear - FP; induction FP; cbn [fold_right]; lia).
      assert (Q2 : fold_left (fun mx x => Z.max mx (x + 48)) (a :: fl) (headlen sk - (l3 + l4) + 48) <= Z.of_nat (length payload) + 48).
      { apply K; [exact FP|lia|lia]. }
      lia. }
  destruct M as (-> & M1 & M2).
  destruct (slow_spec fuel reset hp s d lin m fresh (Z.min nexthop lim) payload r F Fp Fr1 Fr2 Us Ud ltac:(lia) M2 B X) as (S1 & S2 & _).
  split; [exact S1|]. eapply Forall_impl; [|exact S2]. cbv beta. lia.
Qed.
Print Assumptions C35_partial.

(** A UDP datagram of 3000 octets, as a fragment at offset 1480 with more to come *)
Definition ex46 : list Z := [69;32;11;204; 18;52; 32;185; 64;17;0;0; 192;0;2;1; 198;51;100;1].
Definition ex_data : list Z := map (fun i => Z.of_nat i mod 256) (seq 0 3000).
Example C35_example :
  plan46 1500 1280 false false true (Skb 3020 3020 [] 0) 28 8 = XOk (SLOW 1280)
  /\ (exists r, ttp46_ipv6_external 40 false false 1 2 20 ex46 (allocate_slow (fun _ => repeat 7 48) 1280 ex_data) = XOk r
      /\ map (@length Z) r = [1280; 1280; 584]%nat /\ map (fun o => fr_offset o 40) r = [1480; 2712; 3944]
      /\ map (fun o => word o 42 mod 2) r = [1; 1; 1] /\ map (fun o => oct o 7) r = [63; 63; 63])
  /\ fr4_offset ex46 0 = 1480 /\ fr4_more ex46 0.
Proof.
  split; [vm_compute; reflexivity|]. split; [|split; [reflexivity|vm_compute; reflexivity]].
  eexists. split; [vm_compute; reflexivity|]. vm_compute. repeat split.
Qed.

(** Not for a fragment which reaches past the end of any datagram ("ping of
    death"): offsets wrap, so the end of the packet becomes the beginning of the
    datagram. *)
Definition ex46_pod : list Z := [69;0;11;204; 18;52; 31;255; 64;17;0;0; 192;0;2;1; 198;51;100;1].
Theorem C35_refuted : exists m payload r, Forall is_u8 m /\ Forall is_u8 payload /\ fr4_offset m 0 = 65528 /\ length payload = 3000%nat
  /\ plan46 1500 1280 false false true (Skb 3020 3020 [] 0) 28 8 = XOk (SLOW 1280)
  /\ ttp46_ipv6_external 40 false false 1 2 20 m (allocate_slow (fun _ => repeat 7 48) 1280 payload) = XOk r
  /\ map (fun o => fr_offset o 40) r = [65528; 1224; 2456].
Proof.
  exists ex46_pod, ex_data. eexists.
  split; [unfold ex46_pod; u8s; unfold is_u8; lia|].
  split. { unfold ex_data. apply Forall_forall. intros x I. apply in_map_iff in I. destruct I as (i & <- & _). unfold is_u8. change (2^8) with 256. lia. }
  split; [reflexivity|]. split; [reflexivity|]. split; [vm_compute; reflexivity|]. split; [vm_compute; reflexivity|]. vm_compute. reflexivity.
Qed.
Print Assumptions C35_refuted.

(** The fast path: one packet, which fits. *)
Theorem C35_fast : forall nexthop lim df frag sk l3 l4,
  plan46 nexthop lim false df frag sk (l3 + l4) l4 = XOk FAST -> gso sk = 0 -> flist sk = [] ->
  40 + (if frag then 8 else 0) + (slen sk - l3) <= nexthop /\ (df = false -> 40 + (if frag then 8 else 0) + (slen sk - l3) <= lim).
Proof.
  intros nexthop lim df frag sk l3 l4 P G FL. unfold plan46, fragment_exceeds_mtu46 in P. cbv zeta in P. rewrite G, FL in P. change (negb (0 =? 0)) with false in P. cbv iota in P.
  destruct (Z.min nexthop lim <? 1280) eqn:E1; [discriminate|]. destruct df.
  - destruct (nexthop <? 40 + (if frag then 8 else 0) + l4 + (slen sk - (l3 + l4))) eqn:E2; [discriminate|]. split; [lia|discriminate].
  - destruct (Z.min nexthop lim <? 40 + (if frag then 8 else 0) + l4 + (slen sk - (l3 + l4))) eqn:E2; [discriminate|]. lia.
Qed.
Print Assumptions C35_fast.
Example C35_fast_example : plan46 1500 1280 false true false (Skb 1480 1480 [] 0) 40 20 = XOk FAST
  /\ plan46 1500 1280 false false false (Skb 1260 1260 [] 0) 40 20 = XOk FAST.
Proof. split; reflexivity. Qed.

(** ** C36 *)

(** Packet Too Big to Fragmentation Needed: RFC 7915's formula, as long as the
    result fits in the 16 bits there are for it. An IPv4 sender which obeys it
    sends packets which fit, with 20 more octets, in the links of the IPv6 side. *)
Theorem C36_ptb_partial : forall p im om x, 20 <= p < 4294967296 -> (forall i, im = Some i -> 20 <= i < 4294967296) -> (forall o, om = Some o -> 0 <= o < 4294967296) ->
  lowest (bounds4 p im om) x -> x < 65536 ->
  compute_mtu4 p im om = x
  /\ forall L, L <= compute_mtu4 p im om -> L + 20 <= p /\ (forall o, om = Some o -> L <= o) /\ (forall i, im = Some i -> L + 20 <= i).
Proof.
  intros p im om x P I O [X1 X2] B. assert (E : compute_mtu4 p im om = x).
  { unfold compute_mtu4, bounds4 in *. rewrite u16_mod, !u32_mod. unfold or_infinite, INFINITE.
    destruct im as [i|], om as [o|]; try specialize (I i eq_refl); try specialize (O o eq_refl); cbn [opt app map] in X1, X2.
    - rewrite (Z.mod_small (p - 20)), (Z.mod_small (i - 20)) by lia.
      pose proof (X2 (p - 20) ltac:(cbn [In]; lia)). pose proof (X2 o ltac:(cbn [In]; lia)). pose proof (X2 (i - 20) ltac:(cbn [In]; lia)). cbn [In] in X1. rewrite Z.mod_small; lia.
    - rewrite (Z.mod_small (p - 20)), (Z.mod_small (i - 20)) by lia.
      pose proof (X2 (p - 20) ltac:(cbn [In]; lia)). pose proof (X2 (i - 20) ltac:(cbn [In]; lia)). cbn [In] in X1. rewrite Z.mod_small; lia.
    - rewrite (Z.mod_small (p - 20)), (Z.mod_small (4294967295 - 20)) by lia.
      pose proof (X2 (p - 20) ltac:(cbn [In]; lia)). pose proof (X2 o ltac:(cbn [In]; lia)). cbn [In] in X1. rewrite Z.mod_small; lia.
    - rewrite (Z.mod_small (p - 20)), (Z.mod_small (4294967295 - 20)) by lia.
      pose proof (X2 (p - 20) ltac:(cbn [In]; lia)). cbn [In] in X1. rewrite Z.mod_small; lia. }
  split; [exact E|]. rewrite E. intros L LX. pose proof (X2 (p - 20) ltac:(left; reflexivity)). split; [lia|]. split.
  - intros o ->. pose proof (X2 o ltac:(cbn; tauto)). lia.
  - intros i ->. pose proof (X2 (i - 20) ltac:(unfold bounds4; right; apply in_or_app; right; left; reflexivity)). lia.
Qed.
Print Assumptions C36_ptb_partial.
(** The same, of the message. *)
Theorem C36_ptb_message_partial : forall id im om h out x, length h = 8%nat -> length out = 8%nat -> Forall is_u8 h ->
  match id with Some i => is_u16 i | None => True end -> oct h 0 = 2 -> 20 <= rest h ->
  (forall i, im = Some i -> 20 <= i < 4294967296) -> (forall o, om = Some o -> 0 <= o < 4294967296) -> lowest (bounds4 (rest h) im om) x -> x < 65536 ->
  exists o, icmp64_header id im om h out = XOk o /\ oct o 0 = 3 /\ oct o 1 = 4 /\ word o 6 = x.
Proof.
  intros id im om h out x L1 L2 F I T P Im Om X B. pose proof (icmp64_spec id im om h out L1 L2 F I) as S.
  assert (BC : becomes rules64 (oct h 0) (oct h 1) 3 4).
  { exists 0, 255, (Some 4). split; [rewrite T; cbn; tauto|]. pose proof (oct_u8 h 1 F) as U. unfold is_u8 in U. change (2^8) with 256 in U. split; [lia|reflexivity]. }
  destruct (icmp64_header id im om h out) as [o|j|j e i|]; try contradiction.
  - destruct S as (S1 & S2 & S3 & S4 & S5 & S6 & _). destruct (proj1 C34_rules _ _ _ _ _ _ S3 BC) as [E1 E2]. exists o. split; [reflexivity|]. split; [exact E1|]. split; [exact E2|].
    destruct (S6 T) as [_ ->]. apply C36_ptb_partial; try assumption. split; [exact P|]. unfold rest. pose proof (word_u16 h 4 F) as A1. pose proof (word_u16 h 6 F) as A2.
    unfold is_u16 in A1, A2. change (2^16) with 65536 in *. lia.
  - destruct S as [S|(S & _)]; [elim (S _ _ BC)|lia].
Qed.
Print Assumptions C36_ptb_message_partial.
Example C36_ptb_message_example : icmp64_header None (Some 1500) (Some 1500) [2;0;1;2; 0;0;5;120] (repeat 9 8) = XOk [3;4;1;2; 0;0;5;100].
Proof. reflexivity. Qed.
Example C36_ptb_example : lowest (bounds4 1400 (Some 1500) (Some 1500)) 1380 /\ compute_mtu4 1400 (Some 1500) (Some 1500) = 1380.
Proof. split; [|reflexivity]. split; [left; reflexivity|]. cbn. intros y. lia. Qed.

(** Not in general: a message saying 65556 (bigger than the lowest, with devices
    as big as the loopback device) is translated as one saying 0, which means "I
    do not know about MTUs". A message that says less than 20 wraps around. *)
Theorem C36_ptb_refuted :
  (exists p im om x, 1280 <= p < 4294967296 /\ lowest (bounds4 p im om) x /\ x = 65536 /\ compute_mtu4 p im om = 0)
  /\ (exists p im om, 0 <= p /\ p < compute_mtu4 p im om).
Proof.
  split.
  - exists 65556, None, (Some 65536), 65536. split; [lia|]. split; [split; [left; reflexivity|cbn; lia]|]. split; reflexivity.
  - exists 19, (Some 1500), (Some 1500). vm_compute. split; [discriminate|reflexivity].
Qed.
Print Assumptions C36_ptb_refuted.

(** The table of plateaus, largest first: the search finds the largest one which
    is lower than the length. *)
Lemma find_plateau_spec ps len : descending ps ->
  plateau_below ps len (find_plateau ps len) \/ (forall y, In y ps -> len <= y) /\ find_plateau ps len = 0.
Proof.
  induction 1 as [|x l A D IH]; [right; split; [intros y []|reflexivity]|]. cbn [find_plateau].
  destruct (x <? len) eqn:E; [apply Z.ltb_lt in E|apply Z.ltb_ge in E].
  - left. split; [left; reflexivity|]. split; [exact E|]. intros y [->|I] _; [lia|]. specialize (A y I). lia.
  - destruct IH as [(I1 & I2 & I3)|[I1 I2]].
    + left. split; [right; exact I1|]. split; [exact I2|]. intros y [->|I] L; [lia|]. apply I3; assumption.
    + right. split; [|exact I2]. intros y [->|I]; [lia|apply I1, I].
Qed.

(** Fragmentation Needed to Packet Too Big: RFC 7915's formula, at least 1280,
    where the input device is known. [adv] is the MTU in the message or, if there
    is none, the plateau below the length of the packet which did not fit. An IPv6
    sender which obeys it sends packets which fit in the links of the IPv4 side,
    or can be fragmented there. *)
Theorem C36_frag_needed_partial : forall ps mtu i om tl adv x, descending ps -> Forall is_u16 ps -> is_u16 mtu -> 0 <= i <= 4294967275 ->
  (forall o, om = Some o -> 0 <= o < 4294967296) ->
  (mtu <> 0 -> adv = mtu) -> (mtu = 0 -> plateau_below ps tl adv \/ (forall y, In y ps -> tl <= y) /\ adv = 0) ->
  lowest (bounds6 adv (Some i) om) x ->
  compute_mtu6 ps mtu (Some i) om tl = Z.max 1280 x
  /\ forall L p oh, L <= compute_mtu6 ps mtu (Some i) om tl -> generate_df_flag false 0 (Skb L L [] 0) p oh (L - 20) = true ->
       L - 20 <= adv /\ L - 20 <= i /\ (forall o, om = Some o -> L <= o).
Proof.
  intros ps mtu i om tl adv x D PU MU I O A1 A2 [X1 X2].
  assert (AD : (if mtu =? 0 then find_plateau ps tl else mtu) = adv /\ 0 <= adv < 65536).
  { destruct (mtu =? 0) eqn:E; [apply Z.eqb_eq in E|apply Z.eqb_neq in E].
    - destruct (A2 E) as [P1|[P1 ->]], (find_plateau_spec ps tl D) as [P2|[P2 ->]].
      + assert (K : find_plateau ps tl = adv). { destruct P1 as (U1 & U2 & U3), P2 as (V1 & V2 & V3). pose proof (U3 _ V1 V2). pose proof (V3 _ U1 U2). lia. }
        split; [exact K|]. destruct P1 as (U1 & _). rewrite Forall_forall in PU. apply u16_range, PU, U1.
      + destruct P1 as (U1 & U2 & _). specialize (P2 _ U1). lia.
      + destruct P2 as (U1 & U2 & _). specialize (P1 _ U1). lia.
      + split; [reflexivity|lia].
    - rewrite (A1 E). split; [reflexivity|]. apply u16_range, MU. }
  destruct AD as [AD AR].
  assert (E : compute_mtu6 ps mtu (Some i) om tl = Z.max 1280 x).
  { unfold compute_mtu6, icmp6_minimum_mtu. cbv zeta. rewrite AD, !u32_mod. unfold or_infinite, INFINITE, bounds6 in *.
    pose proof (X2 (adv + 20) ltac:(left; reflexivity)). pose proof (X2 (i + 20) ltac:(right; apply in_or_app; right; left; reflexivity)).
    rewrite (Z.mod_small (adv + 20)), (Z.mod_small (i + 20)) by lia.
    destruct om as [o|]; cbn [opt app map In] in X1, X2; [pose proof (X2 o ltac:(tauto))|];
      match goal with |- (if ?a <? 1280 then _ else _) = _ => assert (Q : a = x) by lia; rewrite Q; destruct (x <? 1280) eqn:E; lia end. }
  split; [exact E|]. rewrite E. intros L p oh LX DF. cbn [generate_df_flag flist gso] in DF. change (negb (0 =? 0)) with false in DF. cbv iota in DF.
  pose proof (X2 (adv + 20) ltac:(left; reflexivity)). pose proof (X2 (i + 20) ltac:(unfold bounds6; right; apply in_or_app; right; left; reflexivity)).
  split; [lia|]. split; [lia|]. intros o ->. pose proof (X2 o ltac:(cbn; tauto)). lia.
Qed.
Print Assumptions C36_frag_needed_partial.
(** The same, of the message. *)
Theorem C36_frag_needed_message_partial : forall id ps i om tl h out adv x, length h = 8%nat -> length out = 8%nat -> Forall is_u8 h ->
  match id with Some i => is_u16 i | None => True end -> oct h 0 = 3 -> oct h 1 = 4 ->
  descending ps -> Forall is_u16 ps -> 0 <= i <= 4294967275 -> (forall o, om = Some o -> 0 <= o < 4294967296) ->
  (word h 6 <> 0 -> adv = word h 6) -> (word h 6 = 0 -> plateau_below ps tl adv \/ (forall y, In y ps -> tl <= y) /\ adv = 0) ->
  lowest (bounds6 adv (Some i) om) x ->
  exists o, icmp46_header id ps (Some i) om tl h out = XOk o /\ oct o 0 = 2 /\ oct o 1 = 0 /\ rest o = Z.max 1280 x.
Proof.
  intros id ps i om tl h out adv x L1 L2 F I T C D PU Ii Om A1 A2 X. pose proof (icmp46_spec id ps (Some i) om tl h out L1 L2 F I) as S.
  assert (BC : becomes rules46 (oct h 0) (oct h 1) 2 0).
  { exists 4, 4, (Some 0). split; [rewrite T; cbn; tauto|]. split; [lia|reflexivity]. }
  pose proof (word_u16 h 6 F) as WU.
  destruct (C36_frag_needed_partial ps (word h 6) i om tl adv x D PU WU Ii Om A1 A2 X) as [E _].
  destruct (icmp46_header id ps (Some i) om tl h out) as [o|j|j e k|]; try contradiction.
  - destruct S as (S1 & S2 & S3 & S4 & S5 & S6 & _). destruct (proj1 (proj2 C34_rules) _ _ _ _ _ _ S3 BC) as [E1 E2]. exists o. split; [reflexivity|]. split; [exact E1|]. split; [exact E2|].
    rewrite (S6 T C), E, u32_mod. assert (x <= 4294967295). { destruct X as [_ X]. pose proof (X (i + 20) ltac:(unfold bounds6; right; apply in_or_app; right; left; reflexivity)). lia. }
    assert (0 <= Z.max 1280 x < 4294967296) by lia. apply Z.mod_small. lia.
  - destruct S as [S|(S & _)]; [elim (S _ _ BC)|lia].
Qed.
Print Assumptions C36_frag_needed_message_partial.
Example C36_frag_needed_message_example : icmp46_header None [] (Some 1500) (Some 1500) 1500 [3;4;1;2; 0;0;5;120] (repeat 9 8) = XOk [2;0;1;2; 0;0;5;140].
Proof. reflexivity. Qed.
Example C36_frag_needed_example :
  compute_mtu6 [65535; 32000; 17914; 8166; 4352; 2002; 1492; 1006; 508; 296; 68] 0 (Some 1500) (Some 1500) 1500 = 1500
  /\ compute_mtu6 [] 1400 (Some 1500) (Some 1500) 1500 = 1420 /\ compute_mtu6 [] 600 (Some 1500) (Some 1500) 1500 = 1280
  /\ descending [65535; 32000; 17914; 8166; 4352; 2002; 1492; 1006; 508; 296; 68] /\ plateau_below [65535; 32000; 17914; 8166; 4352; 2002; 1492; 1006; 508; 296; 68] 1500 1492.
Proof.
  split; [reflexivity|]. split; [reflexivity|]. split; [reflexivity|]. split.
  - repeat (constructor; [cbn [In]; intros y; lia|]). constructor.
  - split; [cbn; tauto|]. split; [lia|]. cbn [In]. intros y. lia.
Qed.

(** Not without an input device (as in hairpinning): the sum wraps, so the result
    is 1280 whatever the message says. *)
Theorem C36_frag_needed_refuted : forall ps mtu om tl, (forall o, om = Some o -> 0 <= o < 4294967296) -> compute_mtu6 ps mtu None om tl = 1280.
Proof.
  intros ps mtu om tl O. unfold compute_mtu6, icmp6_minimum_mtu. cbv zeta. unfold or_infinite at 2. unfold INFINITE.
  change (u32 (4294967295 + 20)) with 19.
  match goal with |- (if ?a <? 1280 then _ else _) = _ => assert (Q : a < 1280) by lia; destruct (a <? 1280) eqn:E; lia end.
Qed.
Print Assumptions C36_frag_needed_refuted.

(** Packets which are too big, 6 to 4: a sender which obeys the message is not
    told again, if the IPv4 MTU is at least 1260 and the packet is linear. *)
Theorem C36_too_big64_partial : forall mtu err sk sk' l3 l4 first j r, 1260 <= mtu <= 4294967275 -> 40 <= l3 -> gso sk' = 0 -> flist sk' = [] -> l3 <= headlen sk' ->
  validate_size (Some mtu) err sk l3 l4 first = XIcmp j E_FRAG_NEEDED r ->
  r = mtu + 20 /\ (headlen sk' <= r -> validate_size (Some mtu) err sk' l3 l4 first = XOk tt).
Proof.
  intros mtu err sk sk' l3 l4 first j r M L3 G FL HL. unfold validate_size. destruct err; [discriminate|].
  destruct (fragment_exceeds_mtu64 sk l3 l4 first mtu) as [|[p|p|]|]; try discriminate. intros X. inversion X; subst.
  rewrite u32_mod, Z.mod_small, Z.max_r by lia. split; [reflexivity|]. intros LE. unfold fragment_exceeds_mtu64. rewrite G, FL. change (negb (0 =? 0)) with false. cbv iota zeta.
  rewrite u32_mod, Z.mod_small by lia. destruct (mtu <? headlen sk' + (20 - l3)) eqn:E; [lia|]. reflexivity.
Qed.
Print Assumptions C36_too_big64_partial.
Example C36_too_big64_example : validate_size (Some 1400) false (Skb 1500 1500 [] 0) 40 20 true = XIcmp J_PKT_TOO_BIG E_FRAG_NEEDED 1420
  /\ validate_size (Some 1400) false (Skb 1420 1420 [] 0) 40 20 true = XOk tt.
Proof. split; reflexivity. Qed.

(** Not for smaller MTUs, which IPv4 has: the sender is told 1280, obeys, and is
    told 1280 again. And not if the packet is not linear: what is in pages is not
    counted. *)
Theorem C36_too_big64_refuted :
  (exists mtu sk j, 68 <= mtu /\ slen sk = 1280 /\ headlen sk = 1280 /\ validate_size (Some mtu) false sk 40 20 true = XIcmp j E_FRAG_NEEDED 1280)
  /\ (exists mtu sk, 1280 <= mtu /\ mtu < slen sk - 20 /\ gso sk = 0 /\ flist sk = [] /\ validate_size (Some mtu) false sk 40 20 true = XOk tt).
Proof.
  split.
  - exists 1006, (Skb 1280 1280 [] 0), J_PKT_TOO_BIG. vm_compute. repeat split; discriminate.
  - exists 1400, (Skb 9000 128 [] 0). vm_compute. repeat split; discriminate.
Qed.
Print Assumptions C36_too_big64_refuted.

(** 4 to 6, packets which may not be fragmented and are not fragments *)
Theorem C36_too_big46_partial : forall nexthop lim err sk sk' l3 l4 j r, nexthop < 4294967296 -> 20 <= l3 -> gso sk' = 0 -> flist sk' = [] ->
  plan46 nexthop lim err true false sk (l3 + l4) l4 = XIcmp j E_FRAG_NEEDED r ->
  r = nexthop - 20 /\ (slen sk' <= r -> plan46 nexthop lim err true false sk' (l3 + l4) l4 = XOk FAST).
Proof.
  intros nexthop lim err sk sk' l3 l4 j r N L3 G FL. unfold plan46. cbv zeta. destruct (Z.min nexthop lim <? 1280) eqn:E; [discriminate|]. destruct err; [discriminate|].
  destruct (fragment_exceeds_mtu46 sk false (l3 + l4) l4 nexthop); [|discriminate]. intros X. inversion X; subst. rewrite u32_mod, Z.mod_small, Z.max_r by lia.
  split; [reflexivity|]. intros LE. unfold fragment_exceeds_mtu46. rewrite G, FL. change (negb (0 =? 0)) with false. cbv iota zeta.
  destruct (nexthop <? 40 + 0 + l4 + (slen sk' - (l3 + l4))) eqn:E2; [lia|reflexivity].
Qed.
Print Assumptions C36_too_big46_partial.
Example C36_too_big46_example : plan46 1500 1280 false true false (Skb 1500 1500 [] 0) 40 20 = XIcmp J_PKT_TOO_BIG E_FRAG_NEEDED 1480
  /\ plan46 1500 1280 false true false (Skb 1480 1480 [] 0) 40 20 = XOk FAST.
Proof. split; reflexivity. Qed.

(** Not for fragments with DF set: the fragment header is not taken into account. *)
Theorem C36_too_big46_refuted : exists nexthop sk j r, plan46 nexthop 1280 false true true sk 28 8 = XIcmp j E_FRAG_NEEDED r /\ slen sk = r /\ gso sk = 0 /\ flist sk = [].
Proof. exists 1500, (Skb 1480 1480 [] 0), J_PKT_TOO_BIG, 1480. repeat split. Qed.
Print Assumptions C36_too_big46_refuted.

(** ** C37 *)

(** 4 to 6, one packet *)
Theorem C37_46 : forall fuel reset hp s d lin m out r,
  Forall is_u8 m -> Forall is_u8 out -> is_u128 s -> is_u128 d -> (48 <= length out)%nat -> Z.of_nat (length out) <= 65575 ->
  ttp46_ipv6_external fuel reset hp s d lin m [out] = XOk r ->
  exists o, r = [o] /\ length o = length out
  /\ (fr4_offset m 0 <> 0 \/ fr4_more m 0 ->
       oct o 6 = 44 /\ fragment_header o 40 (proto46 (oct m 9)) (fr4_offset m 0) (fr4_more m 0) (word m 4) /\ skipn 48 o = skipn 48 out)
  /\ (fr4_offset m 0 = 0 -> ~ fr4_more m 0 -> oct o 6 = proto46 (oct m 9) /\ skipn 40 o = skipn 40 out).
Proof.
  intros fuel reset hp s d lin m out r F Fo Us Ud L L2 X.
  pose proof (ext46_spec fuel reset hp s d lin m out [] F ltac:(lia)) as E. rewrite X in E. destruct E as (E1 & E2 & E3).
  cbn [some_next] in E3. rewrite orb_false_r in E3. cbn [autofill_hdr6] in E3.
  assert (LU : is_u16 (u16 (Z.of_nat (length out) - 40))) by (rewrite u16_mod; apply u16_range; apply Z.mod_pos_bound; lia).
  destruct (written46_spec reset (fragmented4 m 0) m 0 (hops46 hp m) (u16 (Z.of_nat (length out) - 40)) s d out F Fo ltac:(destruct (fragmented4 m 0); lia) (hops46_u8 hp m F E2) LU Us Ud) as (A1 & A2 & A3 & A4 & A5).
  eexists. split; [exact E3|]. split; [exact A1|]. split.
  - intros FR. apply frag4_iff in FR. rewrite FR in A3, A4, A5 |- *. split; [apply A4|]. split; [apply (A5 eq_refl)|exact A3].
  - intros Z1 Z2. destruct (fragmented4 m 0) eqn:FR; [apply frag4_iff in FR; tauto|]. split; [apply A4|exact A3].
Qed.
Print Assumptions C37_46.

(** 6 to 4: with a fragment header, its fields, and DF clear; without, no fragment *)
Theorem C37_64 : forall le c ident s d sk lin m hs pr up p oh out o,
  Forall is_u8 m -> Forall is_u8 out -> (20 <= length out)%nat -> (lin <= length m)%nat -> chain m (oct m 6) 40 hs pr up -> (up <= lin)%nat ->
  is_u8 (new_tos c) -> is_u16 ident -> is_u32 s -> is_u32 d ->
  ttp64_ipv4_external le c ident s d sk lin m (fh_of hs) p oh out = XOk o ->
  match where_is 44 hs with
  | Some f => word o 4 = word m (f + 6) /\ fr4_offset o 0 = fr_offset m f /\ (fr4_more o 0 <-> fr_more m f) /\ ~ df_set o 0
  | None => word o 4 = ident /\ fr4_offset o 0 = 0 /\ ~ fr4_more o 0
      /\ (flist sk = [] -> gso sk = 0 -> (df_set o 0 <-> 1260 < Z.of_nat (length out)))
  end.
Proof.
  intros le c ident s d sk lin m hs pr up p oh out o F Fo L LL C U NT I Us Ud X.
  pose proof (ext64_spec le c ident s d sk lin m hs pr up p oh out F Fo L LL C U NT I Us Ud) as E. rewrite X in E.
  destruct E as (_ & _ & _ & _ & _ & H). destruct H as (B1 & B2 & B3 & B4 & B5 & B6 & B7 & B8 & _).
  unfold id64, df64, more64, off64 in *. cbn [Nat.add] in B4. destruct (where_is 44 hs) as [f|]; [tauto|].
  split; [exact B4|]. split; [exact B8|]. split; [tauto|]. intros FL G. rewrite B6. unfold generate_df_flag. rewrite FL, G. change (negb (0 =? 0)) with false. cbv iota. lia.
Qed.
Print Assumptions C37_64.

(** There and back: a fragment's fields, and its TOS, are what they were. (The
    protocol is not one of those which are IPv6 extension headers.) *)
Theorem C37_round_trip : forall fuel lin m out s d o le c ident s4 d4 sk p oh out4 o4,
  Forall is_u8 m -> Forall is_u8 out -> is_u128 s -> is_u128 d -> (48 <= length out)%nat -> Z.of_nat (length out) <= 65575 ->
  fr4_offset m 0 <> 0 \/ fr4_more m 0 -> ~ In (oct m 9) [0; 43; 44; 60] ->
  ttp46_ipv6_external fuel false false s d lin m [out] = XOk [o] ->
  Forall is_u8 out4 -> (20 <= length out4)%nat -> is_u8 (new_tos c) -> is_u16 ident -> is_u32 s4 -> is_u32 d4 ->
  ttp64_ipv4_external le c ident s4 d4 sk (length o) o 40 p oh out4 = XOk o4 ->
  word o4 4 = word m 4 /\ fr4_offset o4 0 = fr4_offset m 0 /\ (fr4_more o4 0 <-> fr4_more m 0) /\ ~ df_set o4 0
  /\ oct o4 9 = proto64 (proto46 (oct m 9)) /\ oct o4 8 = oct m 8 - 2 /\ (reset_tos c = false -> dscp_only c = false -> oct o4 1 = oct m 1).
Proof.
  intros fuel lin m out s d o le c ident s4 d4 sk p oh out4 o4 F Fo Us Ud L L2 FR NP X F4 L4 NT I Us4 Ud4 Y.
  pose proof (ext46_spec fuel false false s d lin m out [] F ltac:(lia)) as E. rewrite X in E. destruct E as (E1 & E2 & E3).
  cbn [some_next] in E3. rewrite orb_false_r in E3. cbn [autofill_hdr6] in E3. assert (E4 := f_equal (fun l => hd [] l) E3). cbn [hd] in E4. clear E3.
  assert (LU : is_u16 (u16 (Z.of_nat (length out) - 40))) by (rewrite u16_mod; apply u16_range; apply Z.mod_pos_bound; lia).
  apply frag4_iff in FR.
  destruct (written46_spec false (fragmented4 m 0) m 0 (hops46 false m) (u16 (Z.of_nat (length out) - 40)) s d out F Fo ltac:(destruct (fragmented4 m 0); lia) (hops46_u8 false m F E2) LU Us Ud) as (A1 & A2 & A3 & A4 & A5).
  rewrite <- E4 in A1, A2, A3, A4, A5. rewrite FR in A4, A5. specialize (A5 eq_refl).
  assert (C : chain o (oct o 6) 40 [(44, 40%nat)] (proto46 (oct m 9)) 48).
  { destruct A4 as (_ & _ & _ & _ & _ & N & _). cbn [Nat.add] in N. rewrite N. change 48%nat with (40 + 8)%nat. apply c_frag; [lia|destruct A5 as (P & _); symmetry; exact P|].
    unfold proto46. destruct (oct m 9 =? 1); [cbn; lia|exact NP]. }
  pose proof (ext64_spec le c ident s4 d4 sk (length o) o [(44, 40%nat)] (proto46 (oct m 9)) 48 p oh out4 A2 F4 L4 (Nat.le_refl _) C ltac:(lia) NT I Us4 Ud4) as E.
  change (fh_of [(44, 40%nat)]) with 40%nat in E. rewrite Y in E. destruct E as (_ & _ & _ & _ & _ & H).
  destruct H as (B1 & B2 & B3 & B4 & B5 & B6 & B7 & B8 & B9 & B10 & _). unfold id64, df64, more64, off64 in *. change (where_is 44 [(44, 40%nat)]) with (Some 40%nat) in *. cbv iota in *.
  destruct A5 as (P1 & P2 & P3 & P4 & P5 & P6). destruct A4 as (Q1 & Q2 & Q3 & Q4 & Q5 & Q6 & Q7 & _). cbn [Nat.add] in *.
  pose proof (word_u16 m 4 F) as WU. pose proof (word_u16 o 44 A2) as W1. pose proof (word_u16 o 46 A2) as W2. unfold is_u16 in WU, W1, W2. change (2^16) with 65536 in *.
  split; [rewrite B4; lia|]. split; [congruence|]. split; [tauto|]. split; [tauto|]. split; [exact B10|].
  split; [rewrite B9, Q7; unfold hops46; lia|]. intros R D. rewrite B2. unfold flow_tos, tos64. rewrite R, D, Q2. reflexivity.
Qed.
Print Assumptions C37_round_trip.

(** a fragment there and back *)
Example C37_example : exists o o4,
  ttp46_ipv6_external 40 false false 1 2 20 ex46 [repeat 7 60] = XOk [o]
  /\ ttp64_ipv4_external true (TosConf false 0 false) 5 6 7 (Skb 60 60 [] 0) 60 o 40 UDP 20 (repeat 9 32) = XOk o4
  /\ word o4 4 = 4660 /\ fr4_offset o4 0 = 1480 /\ fr4_more o4 0 /\ oct o4 1 = 32 /\ fr4_offset ex46 0 = 1480.
Proof. eexists _, _. split; [vm_compute; reflexivity|]. split; [vm_compute; reflexivity|]. vm_compute. repeat split. Qed.

(** Inner packets, 4 to 6 *)
Theorem C37_inner46 : forall reset hp s d m h ih oh out, Forall is_u8 m -> Forall is_u8 out -> is_u128 s -> is_u128 d -> (48 <= length out)%nat ->
  exists o, ttp46_ipv6_internal reset hp s d m h ih oh out = XOk o /\ length o = length out
  /\ (fr4_offset m h <> 0 \/ fr4_more m h -> oct o 6 = 44 /\ fragment_header o 40 (proto46 (oct m (h + 9))) (fr4_offset m h) (fr4_more m h) (word m (h + 4)))
  /\ (fr4_offset m h = 0 -> ~ fr4_more m h -> oct o 6 = proto46 (oct m (h + 9))) /\ oct o 7 = oct m (h + 8) /\ (reset = false -> tclass o 0 = oct m (h + 1)).
Proof.
  intros reset hp s d m h ih oh out F Fo Us Ud L. rewrite int46_spec by (assumption || lia). eexists. split; [reflexivity|].
  assert (LU : is_u16 (u16 (u32 (word m (h + 2) - ih + oh - 40)))) by (rewrite u16_mod; apply u16_range; apply Z.mod_pos_bound; lia).
  destruct (written46_spec reset (fragmented4 m h) m h (oct m (h + 8)) (u16 (u32 (word m (h + 2) - ih + oh - 40))) s d out F Fo ltac:(destruct (fragmented4 m h); lia) (oct_u8 m _ F) LU Us Ud) as (A1 & A2 & A3 & A4 & A5).
  split; [exact A1|]. split; [|split; [|split]].
  - intros FR. apply frag4_iff in FR. rewrite FR in A4, A5 |- *. split; [apply A4|apply (A5 eq_refl)].
  - intros Z1 Z2. destruct (fragmented4 m h) eqn:FR; [apply frag4_iff in FR; tauto|]. apply A4.
  - apply A4.
  - intros ->. apply A4.
Qed.
Print Assumptions C37_inner46.
Example C37_inner46_example : exists o, ttp46_ipv6_internal false false 1 2 ex46 0 28 56 (repeat 7 60) = XOk o /\ fr_offset o 40 = 1480.
Proof. eexists. split; [vm_compute; reflexivity|]. reflexivity. Qed.

(** Not for inner packets, 6 to 4. The inner fragment header is not looked at:
    the first fragment of a datagram becomes a packet without more fragments and
    with some other identification. (pkt->frag_offset is the outer packet's.) *)
(** 2001:db8::1 and 64:ff9b::c633:6401 *)
Definition ex_addrs : list Z := [32;1;13;184; 0;0;0;0; 0;0;0;0; 0;0;0;1; 0;100;255;155; 0;0;0;0; 0;0;0;0; 198;51;100;1].
Definition ex_inner : list Z := [96;0;0;0; 0;16; 44;64] ++ ex_addrs ++ [17;0; 0;1; 0;0;18;52; 0;7;0;9; 0;100;1;1].
Theorem C37_inner64_refuted : exists m o, Forall is_u8 m /\ inner6 m 0 [(44, 40%nat)] 17 48 56 /\ fr_more m 40 /\ word m 46 = 4660
  /\ ttp64_ipv4_internal true (TosConf false 0 false) 5 6 7 (Skb 56 56 [] 0) 56 m 0 0 UDP 56 28 (repeat 9 28) = XOk o
  /\ word o 4 = 5 /\ ~ fr4_more o 0.
Proof.
  exists ex_inner. eexists. split; [unfold ex_inner, ex_addrs; cbn; repeat constructor; unfold is_u8; lia|]. split.
  - split; [cbn; lia|]. split; [reflexivity|]. split.
    + change (oct ex_inner (0 + 6)) with 44. change 48%nat with (40 + 8)%nat. apply (c_frag ex_inner 40 17); [cbn; lia|reflexivity|cbn; lia].
    + split; [reflexivity|]. split; [|split; [cbn; lia|lia]]. split; [lia|]. split; [reflexivity|lia].
  - split; [reflexivity|]. split; [reflexivity|]. split; [vm_compute; reflexivity|]. split; [reflexivity|]. vm_compute. discriminate.
Qed.
Print Assumptions C37_inner64_refuted.

(** ** C38 *)

(** 6 to 4: a packet with hop limit 1 or less is answered; otherwise the TTL is
    one less. The traffic class is copied, or what is configured. *)
Theorem C38_64 : forall le c ident s d sk lin m hs pr up p oh out,
  Forall is_u8 m -> Forall is_u8 out -> (20 <= length out)%nat -> (lin <= length m)%nat -> chain m (oct m 6) 40 hs pr up -> (up <= lin)%nat ->
  is_u8 (new_tos c) -> is_u16 ident -> is_u32 s -> is_u32 d ->
  (oct m 7 <= 1 -> exists j, ttp64_ipv4_external le c ident s d sk lin m (fh_of hs) p oh out = XIcmp j E_TTL 0)
  /\ (1 < oct m 7 -> routing_done m hs -> exists o, ttp64_ipv4_external le c ident s d sk lin m (fh_of hs) p oh out = XOk o
      /\ oct o 8 = oct m 7 - 1
      /\ (dscp_only c = false -> oct o 1 = if reset_tos c then new_tos c else tclass m 0)
      /\ oct o 1 / 4 = (if reset_tos c then new_tos c else tclass m 0) / 4).
Proof.
  intros le c ident s d sk lin m hs pr up p oh out F Fo L LL C U NT I Us Ud.
  pose proof (ext64_spec le c ident s d sk lin m hs pr up p oh out F Fo L LL C U NT I Us Ud) as E.
  destruct (ttp64_ipv4_external le c ident s d sk lin m (fh_of hs) p oh out) as [o|j|j e i|]; try contradiction.
  - destruct E as (T & _ & _ & _ & _ & H). destruct H as (B1 & B2 & B3 & B4 & B5 & B6 & B7 & B8 & B9 & _). cbn [Nat.add] in *. split; [lia|].
    intros _ _. exists o. split; [reflexivity|]. split; [exact B9|]. rewrite B2. fold (tos64 c m 0). unfold flow_tos. split; [intros ->; reflexivity|]. destruct (dscp_only c); [lia|reflexivity].
  - destruct E as [(-> & -> & -> & T)|(-> & -> & T & r & W & N & _)].
    + split; [eauto|lia].
    + split; [lia|]. intros _ R. unfold routing_done in R. rewrite W in R. contradiction.
Qed.
Print Assumptions C38_64.

(** 4 to 6. The second translation of a hairpinned packet keeps the TTL: the first
    one already took one off. *)
Theorem C38_46 : forall fuel reset hp s d lin m out next,
  Forall is_u8 m -> Forall is_u8 out -> (48 <= length out)%nat -> is_u128 s -> is_u128 d -> has_unexpired_src_route fuel lin m 0 = Ok false ->
  (hp = false -> oct m 8 <= 1 -> exists j, ttp46_ipv6_external fuel reset hp s d lin m (out :: next) = XIcmp j E_TTL 0)
  /\ (hp = true \/ 1 < oct m 8 -> exists o r, ttp46_ipv6_external fuel reset hp s d lin m (out :: next) = XOk (o :: r)
      /\ oct o 7 = (if hp then oct m 8 else oct m 8 - 1) /\ tclass o 0 = (if reset then 0 else oct m 1)).
Proof.
  intros fuel reset hp s d lin m out next F Fo L Us Ud R.
  pose proof (ext46_spec fuel reset hp s d lin m out next F ltac:(lia)) as E.
  destruct (ttp46_ipv6_external fuel reset hp s d lin m (out :: next)) as [r|j|j e i|]; try contradiction.
  - destruct E as (_ & E2 & E3). split; [intros -> T; specialize (E2 eq_refl); lia|]. intros _.
    assert (LU : is_u16 (u16 (Z.of_nat (length out) - 40))) by (rewrite u16_mod; apply u16_range; apply Z.mod_pos_bound; lia).
    destruct (written46_spec reset (fragmented4 m 0 || some_next next) m 0 (hops46 hp m) (u16 (Z.of_nat (length out) - 40)) s d out F Fo ltac:(destruct (fragmented4 m 0 || some_next next); lia) (hops46_u8 hp m F E2) LU Us Ud) as (A1 & A2 & A3 & A4 & A5).
    set (o := written46 _ _ _ _ _ _ _ _ _) in *. clearbody o. destruct A4 as (Q1 & Q2 & Q3 & Q4 & Q5 & Q6 & Q7 & Q8 & Q9). cbn [Nat.add] in *.
    destruct next as [|n next].
    + exists o, []. split; [rewrite E3; reflexivity|]. split; [exact Q7|exact Q2].
    + rewrite orb_true_r in A5, Q6. cbn [some_next] in *.
      assert (A5' := A5 eq_refl).
      destruct (set_mf o (tc46 reset m 0) (u16 (Z.of_nat (length out) - 40)) (hops46 hp m) s d (proto46 (oct m 9)) (fr4_offset m 0) (fr4_more m 0) (word m 4) ltac:(lia)) as (M1 & M2 & M3 & M4).
      { unfold ipv6_header. cbn [Nat.add]. tauto. } { exact A5'. }
      eexists _, _. split; [rewrite E3; reflexivity|]. destruct M2 as (N1 & N2 & N3 & N4 & N5 & N6 & N7 & _). split; [exact N7|exact N2].
  - destruct E as [(-> & -> & -> & T)|(-> & -> & -> & T & T2 & _)]; [congruence|]. split; [eauto|]. intros [->|]; [discriminate|lia].
  - exfalso. apply (E false). exact R.
Qed.
Print Assumptions C38_46.

Definition ex64 : list Z := [107;130;0;0; 0;12; 17;64] ++ ex_addrs ++ [0;7;0;9; 0;12;1;1; 1;2;3;4].
Example C38_example :
  (exists o, ttp64_ipv4_external true (TosConf false 0 false) 5 6 7 (Skb 52 52 [] 0) 52 ex64 0 UDP 28 (repeat 9 32) = XOk o /\ oct o 8 = 63 /\ oct o 1 = 184)
  /\ tclass ex64 0 = 184 /\ chain ex64 (oct ex64 6) 40 [] 17 40
  /\ (exists o, ttp46_ipv6_external 40 false false 1 2 20 ex46 [repeat 7 60] = XOk [o] /\ oct o 7 = 63 /\ tclass o 0 = 32).
Proof.
  split; [eexists; split; [vm_compute; reflexivity|split; reflexivity]|]. split; [reflexivity|]. split; [apply c_upper; cbn; lia|].
  eexists. split; [vm_compute; reflexivity|]. split; reflexivity.
Qed.

(** Not the whole traffic class on kernels 6.18 and later: the route lookup's
    structure, through which it goes, has no room for the ECN bits. *)
Theorem C38_ecn_refuted : exists m o c, Forall is_u8 m /\ reset_tos c = false /\ chain m (oct m 6) 40 [] 17 40
  /\ ttp64_ipv4_external true c 5 6 7 (Skb 52 52 [] 0) 52 m 0 UDP 28 (repeat 9 32) = XOk o /\ tclass m 0 = 187 /\ oct o 1 = 184.
Proof.
  exists ([107;176;0;0; 0;12; 17;64] ++ ex_addrs ++ [0;7;0;9; 0;12;1;1; 1;2;3;4]). eexists _, (TosConf false 0 true).
  split; [unfold ex_addrs; cbn; repeat constructor; unfold is_u8; lia|]. split; [reflexivity|]. split; [apply c_upper; cbn; lia|].
  split; [vm_compute; reflexivity|]. split; reflexivity.
Qed.
Print Assumptions C38_ecn_refuted.
