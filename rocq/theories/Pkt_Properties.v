(** C39, C40, C61, C62: the layout of incoming packets.
    Octet strings: [Forall is_u8 m]. [lin <= length m]: the linear area is part
    of the packet. *)
Require Import Verif.Base Verif.Rtrie_Model Verif.Pool4_Model Verif.Pkt_Model Verif.Pkt_Spec Verif.Pkt_Proofs.

(** ** C39 *)

(** The loop of summarize_skb6 ends, also for the packet inside of an error. *)
Theorem C39_terminates : forall mem m lin, Forall is_u8 m -> (lin <= length m)%nat -> pkt_init_ipv6 mem m lin <> BadFuel.
Proof. exact init6_fuel. Qed.
Print Assumptions C39_terminates.

(** An accepted packet is well formed; what was noted of it is true; walking its
    headers with the iterator later stays in the linear area, and finds the same
    transport header and fragment header. Likewise for the packet inside of an
    ICMPv6 error. *)
Theorem C39_parses : forall mem m lin mt l, Forall is_u8 m -> (lin <= length m)%nat ->
  pkt_init_ipv6 mem m lin = Good (mt, l) ->
  exists hs p,
    packet6 m hs p (l4off mt) (payoff mt)
    /\ fhdr mt = match where_is 44 hs with Some f => f | None => O end
    /\ (l4p mt = TCP <-> p = 6) /\ (l4p mt = UDP <-> p = 17) /\ (l4p mt = ICMP <-> p = 58)
    /\ (40 <= l)%nat /\ (payoff mt <= l)%nat /\ (lin <= l <= length m)%nat
    /\ hdr_iterator_last l m 0 = Ok (p, l4off mt)
    /\ hdr_iterator_find l m 0 44 = Ok (where_is 44 hs)
    /\ segments_left l m 0 = Ok (match where_is 43 hs with Some r => if oct m (r + 3) =? 0 then None else Some (r + 3)%nat | None => None end)
    /\ (p = 58 -> icmp6_error_type (oct m (l4off mt)) -> exists hs' p' up' pay',
          inner6 m (payoff mt) hs' p' up' pay' /\ (pay' <= l)%nat
          /\ hdr_iterator_last l m (payoff mt) = Ok (p', up')
          /\ hdr_iterator_find l m (payoff mt) 44 = Ok (where_is 44 hs')).
Proof.
  intros mem m lin mt l Hm Hl H. apply init6_good in H; [|assumption|assumption].
  destruct H as (hs & p & PK & F & P & L1 & L2 & L3 & L4 & IN). exists hs, p.
  pose proof PK as (_ & C & T1 & T2 & _ & _).
  assert (U : (l4off mt <= payoff mt)%nat).
  { destruct (firstb m hs) eqn:FB.
    - apply firstb_iff in FB. apply T1 in FB. eapply transport_le; eauto.
    - rewrite T2; [lia|]. intros X. apply firstb_iff in X. congruence. }
  assert (PP : (l4p mt = TCP <-> p = 6) /\ (l4p mt = UDP <-> p = 17) /\ (l4p mt = ICMP <-> p = 58)).
  { rewrite P. split; [|split; [|apply proto_of_icmp]]; unfold proto_of;
      destruct (p =? 6) eqn:A; [apply Z.eqb_eq in A|apply Z.eqb_neq in A| apply Z.eqb_eq in A|apply Z.eqb_neq in A];
      try (split; [tauto||discriminate|tauto||lia]);
      destruct (p =? 17) eqn:B; [apply Z.eqb_eq in B|apply Z.eqb_neq in B| apply Z.eqb_eq in B|apply Z.eqb_neq in B];
      try (split; [tauto||discriminate|tauto||lia]); destruct (p =? 58); split; tauto || discriminate || lia. }
  destruct PP as (P1 & P2 & P3).
  split; [exact PK|]. split; [exact F|]. split; [exact P1|]. split; [exact P2|]. split; [exact P3|].
  split; [lia|]. split; [lia|]. split; [lia|].
  split; [apply (hdr_last l m 0 hs); [lia|exact C|lia]|].
  split; [apply (hdr_find l m 0 hs p (l4off mt)); [lia|cbn; tauto|exact C|lia]|].
  split.
  - unfold segments_left. rewrite (hdr_find l m 0 hs p (l4off mt)); [|lia|cbn; tauto|exact C|lia]. cbn [bind].
    destruct (where_is 43 hs) as [r|] eqn:W; [|reflexivity].
    apply where_In in W. apply (chain_hdr _ _ _ _ _ _ C) in W. unfold direct.
    destruct (r + 3 + 1 <=? l)%nat eqn:D; [|apply Nat.leb_gt in D; lia]. cbn [bind]. change byte with oct. rewrite Nat.sub_0_r. destruct (_ =? 0); reflexivity.
  - intros E Y. destruct (IN E Y) as (hs' & p' & up' & pay' & I1 & I2). exists hs', p', up', pay'.
    pose proof I1 as (_ & _ & C' & _ & T' & _). apply transport_le in T'.
    split; [exact I1|]. split; [exact I2|]. split; [apply (hdr_last l m (payoff mt) hs'); [lia|exact C'|lia]|].
    apply (hdr_find l m (payoff mt) hs' p' up'); [lia|cbn; tauto|exact C'|lia].
Qed.
Print Assumptions C39_parses.

(** And well formed packets are accepted, if there is memory. *)
Theorem C39_accepts : forall m lin hs p up pay, Forall is_u8 m -> (lin <= length m)%nat -> packet6 m hs p up pay ->
  exists mt l, pkt_init_ipv6 true m lin = Good (mt, l) /\ l4off mt = up /\ payoff mt = pay.
Proof.
  intros m lin hs p up pay Hm Hl H. destruct (init6_complete m lin hs p up pay Hm Hl H) as [l E].
  exists (Meta (fh_of hs) (proto_of 58 p) up pay), l. auto.
Qed.
Print Assumptions C39_accepts.

(** A packet with a hop-by-hop header, a routing header with a segment left, and a
    fragment header, all paged except for 10 octets; and an ICMPv6 error. *)
Definition ex_addrs : list Z := repeat 32 32.
Definition ex_chain : list Z :=
  [96;0;0;0; 0;56; 0;64] ++ ex_addrs
  ++ [43;0;1;4;0;0;0;0] ++ [44;0;0;1;0;0;0;0] ++ [6;0;0;1;0;0;0;7]
  ++ [0;80;1;187; 0;0;0;1; 0;0;0;2; 80;16;1;0; 0;0;0;0] ++ repeat 9 12.
Example C39_example : exists l, pkt_init_ipv6 true ex_chain 10 = Good (Meta 56 TCP 64 84, l) /\ l = 84%nat /\ (l < length ex_chain)%nat
  /\ segments_left l ex_chain 0 = Ok (Some 51%nat).
Proof. eexists. vm_compute. repeat split; lia. Qed.

Definition ex_error : list Z :=
  [96;0;0;0; 0;64; 58;64] ++ ex_addrs ++ [1;4;0;0;0;0;0;0]
  ++ [96;0;0;0; 0;100; 60;64] ++ ex_addrs ++ [17;0;1;4;0;0;0;0] ++ [0;80;1;187;0;92;0;0].
Example C39_example_error : exists l, pkt_init_ipv6 true ex_error 48 = Good (Meta 0 ICMP 40 48, l) /\ l = 104%nat
  /\ icmp6_error_type (oct ex_error 40) /\ hdr_iterator_last l ex_error 48 = Ok (17, 96%nat).
Proof. eexists. vm_compute. repeat split. left. reflexivity. Qed.
Example C39_example_octets : Forall is_u8 ex_chain /\ Forall is_u8 ex_error.
Proof. split; unfold ex_chain, ex_error, ex_addrs; cbn; repeat constructor; unfold is_u8; lia. Qed.

(** ** C62: the same for IPv4. The kernel has checked the version, the header length
    and the total length of the (outer) header; the theorems do not need it. *)
Theorem C62_parses : forall mem m lin mt l, (lin <= length m)%nat ->
  pkt_init_ipv4 mem m lin = Good (mt, l) ->
  packet4 m (oct m 9) (l4off mt) (payoff mt) /\ fhdr mt = O
  /\ (l4p mt = TCP <-> oct m 9 = 6) /\ (l4p mt = UDP <-> oct m 9 = 17) /\ (l4p mt = ICMP <-> oct m 9 = 1)
  /\ (20 <= l)%nat /\ (payoff mt <= l)%nat /\ (lin <= l <= length m)%nat
  /\ (oct m 9 = 1 -> icmp4_error_type (oct m (l4off mt)) -> exists pay', inner4 m (payoff mt) pay' /\ (pay' <= l)%nat).
Proof.
  intros mem m lin mt l Hl H. apply init4_good in H; [|assumption].
  destruct H as (PK & F & P & L1 & L2 & L3 & L4 & IN).
  split; [exact PK|]. split; [exact F|]. rewrite P.
  assert (PP : forall p, (proto_of 1 p = TCP <-> p = 6) /\ (proto_of 1 p = UDP <-> p = 17) /\ (proto_of 1 p = ICMP <-> p = 1)).
  { intros p. split; [|split; [|apply proto_of_icmp4]]; unfold proto_of;
      destruct (p =? 6) eqn:A; [apply Z.eqb_eq in A|apply Z.eqb_neq in A| apply Z.eqb_eq in A|apply Z.eqb_neq in A];
      try (split; [tauto||discriminate|tauto||lia]);
      destruct (p =? 17) eqn:B; [apply Z.eqb_eq in B|apply Z.eqb_neq in B| apply Z.eqb_eq in B|apply Z.eqb_neq in B];
      try (split; [tauto||discriminate|tauto||lia]); destruct (p =? 1); split; tauto || discriminate || lia. }
  destruct (PP (oct m 9)) as (P1 & P2 & P3).
  split; [exact P1|]. split; [exact P2|]. split; [exact P3|]. split; [lia|]. split; [lia|]. split; [lia|].
  intros E Y. destruct (IN E) as (_ & _ & _ & X). exact (X Y).
Qed.
Print Assumptions C62_parses.

Theorem C62_accepts : forall m lin p up pay, (lin <= length m)%nat -> packet4 m p up pay ->
  exists mt l, pkt_init_ipv4 true m lin = Good (mt, l) /\ l4off mt = up /\ payoff mt = pay.
Proof.
  intros m lin p up pay Hl H. destruct (init4_complete m lin p up pay Hl H) as [l E].
  exists (Meta 0 (proto_of 1 p) up pay), l. auto.
Qed.
Print Assumptions C62_accepts.

Definition ex4 : list Z :=
  [70;0;0;60; 0;1;0;0; 64;1;0;0; 192;0;2;1; 198;51;100;1; 1;1;1;0] ++ [3;3;0;0;0;0;0;0]
  ++ [69;0;0;100; 0;2;64;0; 64;17;0;0; 198;51;100;1; 192;0;2;1] ++ [0;80;1;187;0;80;0;0].
Example C62_example : exists l, pkt_init_ipv4 true ex4 20 = Good (Meta 0 ICMP 24 32, l) /\ l = 60%nat /\ icmp4_error_type (oct ex4 24).
Proof. eexists. vm_compute. repeat split. left. reflexivity. Qed.

(** ** C61: "After this function, code can assume: skb contains full l3 and l4
    headers (including inner ones) ... within the data area" (packet.h). *)

(** The least a transport header is. *)
Definition least (icmp p : Z) : nat := if p =? 6 then 20%nat else if (p =? 17) || (p =? icmp) then 8%nat else 0%nat.

(** True unless the data offset of a TCP header is less than 5. *)
Theorem C61_ipv6_partial : forall mem m lin mt l hs p, Forall is_u8 m -> (lin <= length m)%nat ->
  pkt_init_ipv6 mem m lin = Good (mt, l) -> packet6 m hs p (l4off mt) (payoff mt) -> first_piece m hs ->
  (p = 6 -> 5 <= oct m (l4off mt + 12) / 16) ->
  (l4off mt + least 58 p <= l)%nat.
Proof.
  intros mem m lin mt l hs p Hm Hl H PK FP D. apply init6_good in H; [|assumption|assumption].
  destruct H as (hs' & p' & PK' & _ & _ & _ & _ & L3 & _).
  pose proof PK as (_ & _ & T & _). destruct (T FP) as (T1 & T2 & T3). unfold least.
  destruct (p =? 6) eqn:A; [apply Z.eqb_eq in A; destruct (T1 A); specialize (D A); lia|apply Z.eqb_neq in A].
  destruct (p =? 17) eqn:B; [apply Z.eqb_eq in B; rewrite T2 in L3 by tauto; cbn; lia|apply Z.eqb_neq in B].
  destruct (p =? 58) eqn:C; [apply Z.eqb_eq in C; rewrite T2 in L3 by tauto; cbn; lia|apply Z.eqb_neq in C].
  rewrite T3 in L3 by tauto. cbn. lia.
Qed.
Print Assumptions C61_ipv6_partial.

Theorem C61_ipv4_partial : forall mem m lin mt l, (lin <= length m)%nat ->
  pkt_init_ipv4 mem m lin = Good (mt, l) -> fr4_offset m 0 = 0 ->
  (oct m 9 = 6 -> 5 <= oct m (l4off mt + 12) / 16) ->
  (l4off mt + least 1 (oct m 9) <= l)%nat.
Proof.
  intros mem m lin mt l Hl H FP D. apply init4_good in H; [|assumption].
  destruct H as (PK & _ & _ & _ & _ & L3 & _).
  pose proof PK as (_ & _ & _ & T & _). destruct (T FP) as (T1 & T2 & T3). unfold least.
  destruct (oct m 9 =? 6) eqn:A; [apply Z.eqb_eq in A; destruct (T1 A); specialize (D A); lia|apply Z.eqb_neq in A].
  destruct (oct m 9 =? 17) eqn:B; [apply Z.eqb_eq in B; rewrite T2 in L3 by tauto; cbn; lia|apply Z.eqb_neq in B].
  destruct (oct m 9 =? 1) eqn:C; [apply Z.eqb_eq in C; rewrite T2 in L3 by tauto; cbn; lia|apply Z.eqb_neq in C].
  rewrite T3 in L3 by tauto. cbn. lia.
Qed.
Print Assumptions C61_ipv4_partial.

Example C61_example : exists l, pkt_init_ipv6 true ex_chain 10 = Good (Meta 56 TCP 64 84, l) /\ (64 + least 58 6 <= l)%nat /\ 5 <= oct ex_chain (64 + 12) / 16
  /\ packet6 ex_chain [(0, 40%nat); (43, 48%nat); (44, 56%nat)] 6 64 84 /\ first_piece ex_chain [(0, 40%nat); (43, 48%nat); (44, 56%nat)].
Proof.
  eexists. split; [vm_compute; reflexivity|]. split; [vm_compute; lia|]. split; [vm_compute; discriminate|].
  split; [|vm_compute; reflexivity].
  unfold packet6. split; [vm_compute; reflexivity|]. split.
  - apply c_ext; [cbn; tauto|cbn; lia|]. apply (c_ext _ 43 48); [cbn; tauto|cbn; lia|].
    apply (c_frag _ 56 6); [cbn; lia|reflexivity|cbn; lia].
  - split; [intros _|split; [|split; [cbn; lia|intros; discriminate]]].
    + split; [intros _; split; [cbn; lia|vm_compute; reflexivity]|]. split; [intros [|]; discriminate|intros; tauto].
    + intros N. elim N. vm_compute. reflexivity.
Qed.

(** Not in general: a TCP header which claims to be shorter than 20 octets. It is
    left in pages, where the translation does not look. *)
Theorem C61_refuted : exists m lin mt l, Forall is_u8 m /\ (lin <= length m)%nat /\
  pkt_init_ipv6 true m lin = Good (mt, l) /\ l4p mt = TCP /\ fhdr mt = O /\ l = l4off mt /\ (l4off mt + 20 <= length m)%nat.
Proof.
  exists ([96;0;0;0; 0;20; 6;64] ++ ex_addrs ++ [0;80;1;187; 0;0;0;1; 0;0;0;2; 0;16;1;0; 0;0;0;0]), 40%nat.
  eexists _, _. split; [unfold ex_addrs; cbn; repeat constructor; unfold is_u8; lia|].
  split; [cbn; lia|]. split; [vm_compute; reflexivity|]. vm_compute. repeat split. lia.
Qed.
Print Assumptions C61_refuted.

(** ** C40 *)

(** With well formed options the scan ends, having read nothing past them (the
    options end at [fin]; they are the area in which it may read), and tells
    whether there is an unexpired source route; if there are several, whether the
    first is. *)
Theorem C40_partial : forall m h fuel, Forall is_u8 m -> options m (h + ihl m h) (h + 20) -> (20 <= ihl m h)%nat -> (ihl m h < 20 + fuel)%nat ->
  exists b, has_unexpired_src_route fuel (h + ihl m h) m h = Ok b
    /\ (b = true -> exists o, at_opt m (h + ihl m h) (h + 20) o /\ source_route m o /\ unexpired m o)
    /\ (b = false -> forall o, at_opt m (h + ihl m h) (h + 20) o -> source_route m o ->
          exists o', (o' <= o)%nat /\ at_opt m (h + ihl m h) (h + 20) o' /\ source_route m o' /\ ~ unexpired m o').
Proof.
  intros m h fuel Hm O I F. unfold has_unexpired_src_route. rewrite ip_hlen_ihl.
  destruct (h + ihl m h <=? h + 20)%nat eqn:E; [apply Nat.leb_le in E|apply Nat.leb_gt in E].
  - eexists. split; [reflexivity|]. split; [discriminate|]. intros _ o A _. exfalso. inversion A; subst; lia.
  - apply src_route_ok; [assumption|assumption|lia|lia].
Qed.
Print Assumptions C40_partial.

(** nop, router alert, a loose source route with its pointer at the second address *)
Definition ex_opts : list Z := [73;0;0;36; 0;1;0;0; 64;17;0;0; 192;0;2;1; 198;51;100;1] ++ [1; 148;4;0;0; 131;11;8; 1;2;3;4; 5;6;7;8].
Example C40_example : has_unexpired_src_route 40 36 ex_opts 0 = Ok true /\ ihl ex_opts 0 = 36%nat /\ options ex_opts 36 20.
Proof.
  split; [vm_compute; reflexivity|]. split; [reflexivity|].
  apply o_nop; [lia|reflexivity|]. apply o_opt; [discriminate|discriminate|lia|vm_compute; discriminate|vm_compute; lia|vm_compute; lia|].
  change (20 + 1 + Z.to_nat (oct ex_opts (20 + 1 + 1)))%nat with 25%nat.
  apply o_opt; [discriminate|discriminate|lia|vm_compute; discriminate|vm_compute; discriminate|vm_compute; lia|].
  change (25 + Z.to_nat (oct ex_opts (25 + 1)))%nat with 36%nat. apply o_none.
Qed.

(** Not in general. An option with length 0: the kernel loops forever. An option
    whose length is past the options: the scan reads past them. *)
Definition loop_opts : list Z := [70;0;0;24; 0;1;0;0; 64;17;0;0; 192;0;2;1; 198;51;100;1; 7;0;0;0].
Lemma loop_forever : forall fuel, src_route fuel 24 loop_opts 20 24 = NoFuel.
Proof. induction fuel as [|fuel IH]; [reflexivity|]. cbn. exact IH. Qed.
Theorem C40_refuted :
  (exists m, Forall is_u8 m /\ length m = ihl m 0 /\ forall fuel, has_unexpired_src_route fuel (ihl m 0) m 0 = NoFuel)
  /\ (exists m, Forall is_u8 m /\ length m = ihl m 0 /\ has_unexpired_src_route 100 (ihl m 0) m 0 = UB).
Proof.
  split.
  - exists loop_opts. split; [repeat constructor; unfold is_u8; lia|]. split; [reflexivity|]. intros fuel. exact (loop_forever fuel).
  - exists [70;0;0;24; 0;1;0;0; 64;17;0;0; 192;0;2;1; 198;51;100;1; 1;1;1;137].
    split; [repeat constructor; unfold is_u8; lia|]. split; reflexivity.
Qed.
Print Assumptions C40_refuted.
