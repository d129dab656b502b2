(** C74, C75: whole packets, from the octets which come in to those which go out. *)
Require Import Verif.Base Verif.Pool4_Model Verif.Rtrie_Model Verif.Nat64_Model Verif.Csum_Model Verif.Csum_Spec Verif.Csum_Proofs
  Verif.Csum_Properties Verif.Pkt_Model Verif.Pkt_Spec Verif.Pkt_Proofs Verif.Pkt_Properties
  Verif.Hdr_Model Verif.Hdr_Spec Verif.Hdr_Proofs Verif.Hdr_Properties Verif.Ext_Model Verif.Xlat_Model Verif.Xlat_Spec Verif.Xlat_Proofs Verif.Xlat_Proofs46.
Local Ltac Zify.zify_post_hook ::= Z.div_mod_to_equations.

(** ** C74: IPv6 to IPv4 *)

(** The values of the environment are of the types the C code gives them. *)
Definition env64_ok (e : env64) : Prop :=
  good_ports (x_ports e) /\ is_u8 (new_tos (x_tos e)) /\ is_u16 (x_id e) /\ is_u32 (x_src e) /\ is_u32 (x_dst e)
  /\ forall mtu, x_mtu e = Some mtu -> 0 <= mtu < 4294967276.
(** dscp_only is what the kernel's flow keeps of the TOS (RT_TOS) *)
Definition kept (dscp : bool) (tos : Z) : Z := if dscp then 4 * (tos / 4) else tos.

(** True except of: packets whose last next header is 1 (ICMPv4 over IPv6), TCP
    headers with a data offset less than 5, and packets which would be longer
    than an IPv4 packet can be. Counterexamples below. ICMPv6 errors are C77. *)
Theorem C74_partial : forall e mem m lin mt l hs p, Forall is_u8 m -> (lin <= length m)%nat ->
  pkt_init_ipv6 mem m lin = Good (mt, l) -> packet6 m hs p (l4off mt) (payoff mt) -> env64_ok e ->
  p <> 1 -> (p = 58 -> ~ icmp6_error_type (oct m (l4off mt))) ->
  (p = 6 -> first_piece m hs -> 5 <= oct m (l4off mt + 12) / 16) -> (20 + (length m - l4off mt) <= Z.to_nat 65535)%nat ->
  let seg := skipn (l4off mt) m in
  match xlat64 e l m mt with
  | XOk o => 1 < oct m 7 /\ routing_done m hs /\ length o = (20 + length seg)%nat /\ Forall is_u8 o
      /\ (x_gso e = 0 -> x_flist e = [] -> l = length m -> forall mtu, x_mtu e = Some mtu -> Z.of_nat (length o) <= mtu)
      /\ (exists big : Prop, (x_gso e = 0 -> x_flist e = [] -> (big <-> 1260 < Z.of_nat (length o))) /\
          ipv4_header o 0 (kept (dscp_only (x_tos e)) (tos_of (reset_tos (x_tos e)) (new_tos (x_tos e)) (tclass m 0)))
           (Z.of_nat (length o)) (id64 m hs (x_id e)) (df64 hs big) (more64 m hs) (off64 m hs) (oct m 7 - 1) (proto64 p) (x_src e) (x_dst e))
      /\ (first_piece m hs -> segment64 (x_sum e = CS_PARTIAL) (x_ports e) (field m 8 16) (field m 24 16) (x_src e) (x_dst e) p seg (skipn 20 o))
      /\ (~ first_piece m hs -> skipn 20 o = seg)
  | XIcmp j r i => (j = J64_TTL /\ r = E_TTL /\ i = 0 /\ oct m 7 <= 1)
      \/ (j = J64_SEGMENTS_LEFT /\ r = E_HDR_FIELD /\ exists q, where_is 43 hs = Some q /\ oct m (q + 3) <> 0 /\ i = Z.of_nat (q + 3))
      \/ (j = J_PKT_TOO_BIG /\ r = E_FRAG_NEEDED /\ first_piece m hs /\ exists mtu, x_mtu e = Some mtu /\ i = Z.max 1280 (mtu + 20)
          /\ (x_gso e = 0 -> mtu < 20 + Z.of_nat (length seg)))
  | XDrop j => (j = J_UNKNOWN_ICMP6_TYPE /\ p = 58 /\ forall t c, ~ becomes rules64 (oct seg 0) (oct seg 1) t c)
      \/ (j = J_PKT_TOO_BIG /\ exists mtu, x_mtu e = Some mtu /\ (x_gso e = 0 -> x_flist e = [] -> mtu < 20 + Z.of_nat (length seg)))
  | XUB => False
  end.
Proof.
  intros e mem m lin mt l hs p F L G PK (GP & NT & ID & US & UD & MT) P1 NE DO LEN seg.
  pose proof (parse_view mem m lin mt l hs p F L G PK) as V.
  pose proof (o_all e m lin l mt hs p F V P1 NE DO GP NT ID US UD MT) as X.
  assert (LS : length seg = (length m - l4off mt)%nat) by (unfold seg; apply skipn_length).
  unfold seg. rewrite !oct_skipn, Nat.add_0_r. fold seg. rewrite LS.
  destruct (xlat64 e l m mt) as [o|j|j r i|]; [|exact X..].
  destruct X as (X1 & X2 & X3 & X4 & X5 & (big & X6 & X7) & X8). split; [exact X1|]. split; [exact X2|]. split; [lia|]. split; [exact X4|]. split; [exact X5|].
  split; [|exact X8]. exists big. split; [exact X6|]. replace (u16 (Z.of_nat (length o))) with (Z.of_nat (length o)) in X7 by (rewrite u16_mod; symmetry; apply Z.mod_small; lia).
  exact X7.
Qed.
Print Assumptions C74_partial.

(** A UDP packet behind a hop-by-hop and a (used up) routing header, half of it
    paged, becomes the IPv4 one; the checksum is right before and after. *)
Definition ex_src6 : list Z := [32;1;13;184; 0;0;0;0; 0;0;0;0; 0;0;0;5].
Definition ex_dst6 : list Z := [0;100;255;155; 0;0;0;0; 0;0;0;0; 192;0;2;33].
Definition ex_udp6 : list Z :=
  [96;16;0;0; 0;29; 0;64] ++ ex_src6 ++ ex_dst6 ++ [43;0;1;4;0;0;0;0] ++ [17;0;0;0;0;0;0;0]
  ++ [4;210;0;53;0;13;199;27] ++ [104;101;108;108;111].
Definition ex_env64 : env64 := Env64 true (TosConf false 0 false) 7 8 3325256709 3221226017 3221226017 3325256709 (Some (61001, 53)) (Some 1500) (Some 1500)
  CS_NONE [] 0.
Lemma ex_env64_ok : env64_ok ex_env64.
Proof. unfold env64_ok. cbn. unfold is_u8, is_u16, is_u32. repeat split; try lia. all: injection H as <-; lia. Qed.
Example C74_example : pkt_init_ipv6 true ex_udp6 62 = Good (Meta 0 UDP 56 64, 64%nat) /\ packet6 ex_udp6 [(0, 40%nat); (43, 48%nat)] 17 56 64
  /\ env64_ok ex_env64 /\ Forall is_u8 ex_udp6 /\ length ex_udp6 = 69%nat
  /\ ok6 (field ex_udp6 8 16) (field ex_udp6 24 16) 17 (skipn 56 ex_udp6)
  /\ xlat64 ex_env64 64 ex_udp6 (Meta 0 UDP 56 64)
     = XOk ([69;1;0;33; 0;7;0;0; 63;17;143;106; 198;51;100;5; 192;0;2;33] ++ [238;73;0;53; 0;13;225;40] ++ [104;101;108;108;111]).
Proof.
  split; [vm_compute; reflexivity|]. split.
  { unfold packet6. split; [vm_compute; reflexivity|]. split.
    - apply c_ext; [cbn; tauto|cbn; lia|]. apply (c_ext _ 43 48); [cbn; tauto|cbn; lia|]. apply (c_upper _ 17 56); cbn; lia.
    - split; [intros _|split; [intros N; elim N; exact Logic.I|split; [cbn; lia|intros; discriminate]]].
      split; [discriminate|]. split; [reflexivity|intros; tauto]. }
  split; [exact ex_env64_ok|]. split; [vm_compute; repeat constructor; discriminate|]. split; [reflexivity|].
  split; [split; vm_compute; [discriminate|reflexivity]|]. vm_compute. reflexivity.
Qed.

(** A packet whose last next header is 1: Jool reads an ICMPv6 type where there may
    be nothing (compute_flowix64 looks at the translated protocol number). *)
Definition nh1_packet : list Z := [96;0;0;0; 0;0; 1;64] ++ ex_src6 ++ ex_dst6.
(** TCP with data offset 0, the header paged: Jool reads the ports of it in the
    linear area. *)
Definition tcp0_packet : list Z := [96;0;0;0; 0;20; 6;64] ++ ex_src6 ++ ex_dst6 ++ [4;210;0;53] ++ repeat 0 16.
Theorem C74_memory_refuted : exists e m m' mt mt', env64_ok e /\ Forall is_u8 m /\ Forall is_u8 m'
  /\ pkt_init_ipv6 true m (length m) = Good (mt, length m) /\ xlat64 e (length m) m mt = XUB
  /\ pkt_init_ipv6 true m' 40 = Good (mt', 40%nat) /\ oct m' 6 = 6 /\ xlat64 e 40 m' mt' = XUB.
Proof.
  exists ex_env64, nh1_packet, tcp0_packet, (Meta 0 OTHER 40 40), (Meta 0 TCP 40 40). split; [exact ex_env64_ok|].
  split; [vm_compute; repeat constructor; discriminate|]. split; [vm_compute; repeat constructor; discriminate|]. repeat split; vm_compute; reflexivity.
Qed.
Print Assumptions C74_memory_refuted.

(** 65528 octets of UDP and no route (hairpinning): the IPv4 total length is 12. *)
Definition huge_packet : list Z := [96;0;0;0; 255;248; 17;64] ++ ex_src6 ++ ex_dst6 ++ [4;210;0;53;255;248;1;1] ++ repeat 0 (Z.to_nat 65520).
Definition noroute_env64 : env64 := Env64 true (TosConf false 0 false) 7 8 3325256709 3221226017 3221226017 3325256709 None None (Some 1500) CS_NONE [] 0.
Theorem C74_length_refuted : exists e m mt o, env64_ok e /\ Forall is_u8 m /\ pkt_init_ipv6 true m 40 = Good (mt, 48%nat)
  /\ xlat64 e 48 m mt = XOk o /\ word o 2 <> Z.of_nat (length o) /\ word o 2 = 12.
Proof.
  exists noroute_env64, huge_packet, (Meta 0 UDP 40 48).
  assert (X : match xlat64 noroute_env64 48 huge_packet (Meta 0 UDP 40 48) with XOk o => Z.of_nat (length o) = 65548 /\ word o 2 = 12 | _ => False end)
    by (vm_compute; split; reflexivity).
  destruct (xlat64 _ _ _ _) as [o| | |]; try (elim X). destruct X as [X1 X2]. exists o. split.
  { unfold env64_ok. cbn. unfold is_u8, is_u16, is_u32. repeat split; try lia; intros; discriminate. }
  split. { unfold huge_packet. repeat (apply Forall_app; split); [vm_compute; repeat constructor; discriminate..|]. apply Forall_forall. intros x HX. apply repeat_spec in HX. subst. vm_compute. split; [discriminate|reflexivity]. }
  split; [vm_compute; reflexivity|]. split; [reflexivity|]. lia.
Qed.
Print Assumptions C74_length_refuted.

(** ** C75: IPv4 to IPv6 *)

(** Types, no GSO, fraglists left out; the headroom which the copy has, the size of
    new sk_buffs, and as many steps for the options as they have octets. *)
Definition env46_ok (e : env46) (up : nat) : Prop :=
  good_ports (y_ports e) /\ is_u128 (y_src e) /\ is_u128 (y_dst e) /\ y_gso e = 0 /\ y_flist e = []
  /\ (48 <= length (y_head e) + up)%nat /\ Forall is_u8 (y_head e)
  /\ (forall i, length (y_fresh e i) = 48%nat) /\ (forall i, Forall is_u8 (y_fresh e i)) /\ (up < 20 + y_fuel e)%nat.

(** True except of: protocol 58 (ICMPv6 over IPv4), TCP headers with a data offset
    less than 5, options which are not well formed (C40), GSO packets and those of
    several pieces. ICMPv4 errors are C77. *)
Theorem C75_partial : forall e mem m lin mt l, Forall is_u8 m -> (lin <= length m)%nat ->
  pkt_init_ipv4 mem m lin = Good (mt, l) -> env46_ok e (l4off mt) ->
  let p := oct m 9 in let up := l4off mt in let seg := skipn up m in
  p <> 58 -> (p = 1 -> ~ icmp4_error_type (oct m up)) -> (p = 6 -> fr4_offset m 0 = 0 -> 5 <= oct m (up + 12) / 16) ->
  (20 <= up)%nat -> options m up 20 -> fr4_offset m 0 + Z.of_nat (length seg) <= 65515 ->
  match xlat46 e l m mt with
  | XOk outs => (y_hairpin e = false -> 1 < oct m 8)
      /\ (forall o, at_opt m up 20 o -> source_route m o -> exists o', (o' <= o)%nat /\ at_opt m up 20 o' /\ source_route m o' /\ ~ unexpired m o')
      /\ Forall (Forall is_u8) outs
      /\ Forall (fun o => Z.of_nat (length o) <= y_mtu e /\ (~ df_set m 0 -> Z.of_nat (length o) <= y_lim e)) outs
      /\ (df_set m 0 -> length outs = 1%nat)
      /\ exists seg', sent6 (tos_of (y_reset e) 0 (oct m 1)) (oct m 8 - if y_hairpin e then 0 else 1) (y_src e) (y_dst e) (proto46 p) (word m 4)
              (fr4_more m 0) (fr4_offset m 0) seg' outs
         /\ (fr4_offset m 0 = 0 -> segment46 (y_sum e = CS_PARTIAL) (y_ports e) (field m 12 4) (field m 16 4) (y_src e) (y_dst e) p seg seg'
              /\ (p = 17 -> word seg 6 = 0 -> length outs = 1%nat -> ok6 (y_src e) (y_dst e) 17 seg'))
         /\ (fr4_offset m 0 <> 0 -> seg' = seg)
  | XIcmp j r i => (j = J46_TTL /\ r = E_TTL /\ i = 0 /\ y_hairpin e = false /\ oct m 8 <= 1)
      \/ (j = J46_SRC_ROUTE /\ r = E_SRC_ROUTE /\ i = 0 /\ exists o, at_opt m up 20 o /\ source_route m o /\ unexpired m o)
      \/ (j = J_PKT_TOO_BIG /\ r = E_FRAG_NEEDED /\ df_set m 0 /\ (y_mtu e < 4294967296 -> i = y_mtu e - 20)
          /\ y_mtu e < 48 + Z.of_nat (length seg) /\ (fr4_offset m 0 = 0 -> ~ fr4_more m 0 -> y_mtu e < 40 + Z.of_nat (length seg)))
  | XDrop j => (j = J_UNKNOWN_ICMP4_TYPE /\ p = 1 /\ forall t c, ~ becomes rules46 (oct seg 0) (oct seg 1) t c)
      \/ (j = J46_BAD_MTU /\ Z.min (y_mtu e) (y_lim e) < 1280)
      \/ (j = J46_UDP_CSUM0 /\ p = 17 /\ word seg 6 = 0 /\ y_ports e = None /\ (fr4_more m 0 \/ y_amend e = false))
  | XUB => False
  end.
Proof.
  intros e mem m lin mt l F L G (GP & US & UD & GS & FL & HR & FH & FR & FRU & FU) p up seg P58 NE DO UP OPT OFF.
  pose proof (parse_view4 mem m lin mt l L G) as V. pose proof (off4_range m 0 F) as [OR _].
  assert (SG : datagram seg) by (split; [apply skipn_u8; exact F|lia]).
  pose proof (a_all e m lin l mt p F V P58 NE DO SG GP US UD GS FL HR FH FR FRU OPT UP FU OFF) as X.
  fold up seg in X. unfold seg. rewrite !oct_skipn, Nat.add_0_r. fold seg.
  destruct (xlat46 e l m mt) as [outs|j|j r i|]; [|exact X| |exact X].
  - destruct X as (X1 & X2 & X3 & X4 & X5 & seg' & X6 & X7). repeat (split; [assumption|]). exists seg'. split; [|exact X7].
    unfold sent46, hops46, tc46 in X6. unfold tos_of. destruct (y_hairpin e); [rewrite Z.sub_0_r|]; exact X6.
  - destruct X as [X|[X|(X1 & X2 & X3 & X4 & X5)]]; [left; exact X|right; left; exact X|right; right].
    repeat (split; [assumption|]). unfold l3_len46 in X5. split; [destruct (fragmented4 m 0); lia|].
    intros O M. destruct (fragmented4 m 0) eqn:FG; [apply frag4_iff in FG; tauto|lia].
Qed.
Print Assumptions C75_partial.

(** A UDP packet with options, too big for IPv6 links, with a checksum, becomes two
    fragments. *)
Definition ex_udp4 : list Z :=
  [70;4;5;164; 171;205;0;0; 64;17;0;0; 192;0;2;33; 198;51;100;5; 1;1;1;0] ++ [0;53;238;73;5;140;184;155] ++ repeat 7 1412.
Definition ex_env46 : env46 := Env46 true false false true (be_of ex_dst6) (be_of ex_src6) 0 0 (Some (53, 1234)) 1500 1280 None [] CS_NONE [] 0
  (repeat 0 64) (fun _ => repeat 0 48) 40.
Lemma ex_env46_ok : env46_ok ex_env46 24.
Proof.
  unfold env46_ok. cbn [ex_env46 y_ports y_src y_dst y_gso y_flist y_head y_fresh y_fuel]. repeat split; try (vm_compute; (reflexivity || discriminate)); try lia.
  - rewrite repeat_length. lia.
  - apply Forall_forall. intros x H. apply repeat_spec in H. subst. unfold is_u8. lia.
  - intros _. apply Forall_forall. intros x H. apply repeat_spec in H. subst. unfold is_u8. lia.
Qed.
Example C75_example : pkt_init_ipv4 true ex_udp4 20 = Good (Meta 0 UDP 24 32, 32%nat) /\ env46_ok ex_env46 24 /\ Forall is_u8 ex_udp4
  /\ options ex_udp4 24 20 /\ ok4 (field ex_udp4 12 4) (field ex_udp4 16 4) 17 (skipn 24 ex_udp4)
  /\ match xlat46 ex_env46 32 ex_udp4 (Meta 0 UDP 24 32) with
     | XOk [o1; o2] => length o1 = 1280%nat /\ length o2 = 236%nat
         /\ firstn 56 o1 = [96;64;0;0; 4;216;44;63] ++ ex_dst6 ++ ex_src6 ++ [17;0;0;1; 0;0;171;205] ++ [0;53;4;210;5;140;158;142]
         /\ firstn 48 o2 = [96;64;0;0; 0;196;44;63] ++ ex_dst6 ++ ex_src6 ++ [17;0;4;208; 0;0;171;205]
         /\ ok6 (be_of ex_dst6) (be_of ex_src6) 17 (skipn 48 o1 ++ skipn 48 o2)
     | _ => False
     end.
Proof.
  split; [vm_compute; reflexivity|]. split; [exact ex_env46_ok|]. split; [unfold ex_udp4; repeat (apply Forall_app; split); [vm_compute; repeat constructor; discriminate..|]|].
  { apply Forall_forall. intros x H. apply repeat_spec in H. subst. unfold is_u8. lia. }
  split. { do 3 (apply o_nop; [lia|reflexivity|]). apply o_end; [lia|reflexivity]. }
  split; [split; vm_compute; [discriminate|reflexivity]|]. vm_compute. repeat split; discriminate.
Qed.

(** Protocol 58 in IPv4; and again TCP with data offset 0. *)
Definition p58_packet : list Z := [69;0;0;20; 171;205;0;0; 64;58;0;0; 192;0;2;33; 198;51;100;5].
Definition tcp0_packet4 : list Z := [69;0;0;40; 171;205;0;0; 64;6;0;0; 192;0;2;33; 198;51;100;5] ++ repeat 0 20.
Theorem C75_memory_refuted : exists e m m' mt mt', env46_ok e 24 /\ Forall is_u8 m /\ Forall is_u8 m'
  /\ pkt_init_ipv4 true m (length m) = Good (mt, length m) /\ xlat46 e (length m) m mt = XUB
  /\ pkt_init_ipv4 true m' 20 = Good (mt', 20%nat) /\ oct m' 9 = 6 /\ xlat46 e 20 m' mt' = XUB.
Proof.
  exists ex_env46, p58_packet, tcp0_packet4, (Meta 0 OTHER 20 20), (Meta 0 TCP 20 20). split; [exact ex_env46_ok|].
  split; [vm_compute; repeat constructor; discriminate|]. split; [vm_compute; repeat constructor; discriminate|]. repeat split; vm_compute; reflexivity.
Qed.
Print Assumptions C75_memory_refuted.
