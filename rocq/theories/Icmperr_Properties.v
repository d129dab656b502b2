(** C77: whole ICMP errors, from the octets which come in to those which go out. *)
Require Import Verif.Base Verif.Pool4_Model Verif.Rtrie_Model Verif.Nat64_Model Verif.Csum_Model Verif.Csum_Spec Verif.Csum_Proofs
  Verif.Csum_Properties Verif.Pkt_Model Verif.Pkt_Spec Verif.Pkt_Proofs Verif.Pkt_Properties
  Verif.Hdr_Model Verif.Hdr_Spec Verif.Hdr_Proofs Verif.Hdr_Properties Verif.Ext_Model Verif.Ext_Spec Verif.Ext_Proofs Verif.Ext_Properties
  Verif.Xlat_Model Verif.Xlat_Spec Verif.Xlat_Proofs Verif.Xlat_Proofs46 Verif.Xlat_Properties Verif.Icmperr_Spec Verif.Icmperr_Proofs Verif.Icmperr_Proofs46.
Local Ltac Zify.zify_post_hook ::= Z.div_mod_to_equations.

(** ** IPv6 to IPv4 *)

(** The addresses and identification of the packet inside *)
Definition inner64_ok (e : env64) : Prop := is_u16 (x_id' e) /\ is_u32 (x_src' e) /\ is_u32 (x_dst' e).

(** True except of: a fragment header, outside or inside (counterexamples:
    C77_outer_fragment_refuted, C37_inner64_refuted); ICMPv4 over IPv6 and TCP data
    offsets less than 5 inside (as in C74); echoes inside whose two identifiers
    differ; a length attribute which does not cover the IPv6 headers (C41_64_refuted);
    checksums left to the hardware. For echoes inside, the checksum is only right if
    all of the message is there (C77_echo_refuted). *)
Theorem C77_64_partial : forall e mem m lin mt l hs hs' p' up' pay', Forall is_u8 m -> (lin <= length m)%nat ->
  pkt_init_ipv6 mem m lin = Good (mt, l) -> packet6 m hs 58 (l4off mt) (payoff mt) -> env64_ok e -> inner64_ok e ->
  let up := l4off mt in let q := payoff mt in
  icmp6_error_type (oct m up) -> inner6 m q hs' p' up' pay' ->
  where_is 44 hs = None -> where_is 44 hs' = None -> p' <> 1 -> (p' = 6 -> 5 <= oct m (up' + 12) / 16) ->
  (p' = 58 -> forall a b, x_ports e = Some (a, b) -> a = b) -> x_sum e <> CS_PARTIAL ->
  (attr6 m up <> 0 -> Z.of_nat (up' - q) <= attr6 m up) ->
  match xlat64 e l m mt with
  | XOk o => 1 < oct m 7 /\ routing_done m hs /\ (x_sum e = CS_NONE -> ok6 (field m 8 16) (field m 24 16) 58 (skipn up m))
      /\ (length o <= 576)%nat /\ Forall is_u8 o
      /\ ipv4_header o 0 (kept (dscp_only (x_tos e)) (tos_of (reset_tos (x_tos e)) (new_tos (x_tos e)) (tclass m 0)))
           (Z.of_nat (length o)) (x_id e) False False 0 (oct m 7 - 1) 1 (x_src e) (x_dst e)
      /\ checks (skipn 20 o) /\ becomes rules64 (oct m up) (oct m (up + 1)) (oct o 20) (oct o 21)
      /\ rest64 (x_inmtu e) (x_mtu e) (skipn up m) (skipn 20 o)
      /\ exists inn, inner_packet64 (rev_ports (x_ports e)) (tos_of (reset_tos (x_tos e)) (new_tos (x_tos e)) (tclass m q)) (x_id' e) (x_src' e) (x_dst' e)
           m q hs' p' up' inn
         /\ carried64 m up up' inn o
  | XIcmp j r i => (j = J64_TTL /\ r = E_TTL /\ i = 0 /\ oct m 7 <= 1)
      \/ (j = J64_SEGMENTS_LEFT /\ r = E_HDR_FIELD /\ exists q, where_is 43 hs = Some q /\ oct m (q + 3) <> 0 /\ i = Z.of_nat (q + 3))
  | XDrop j => (forall t c, ~ becomes rules64 (oct m up) (oct m (up + 1)) t c)
      \/ (oct m up = 4 /\ oct m (up + 1) = 0 /\ forall p, ~ points pointers64 (rest (skipn up m)) p)
      \/ (j = J64_ICMP_CSUM /\ x_sum e = CS_NONE /\ ~ ok6 (field m 8 16) (field m 24 16) 58 (skipn up m))
      \/ (j = J_UNKNOWN_ICMP6_TYPE /\ p' = 58 /\ forall t c, ~ becomes rules64 (oct m up') (oct m (up' + 1)) t c)
      \/ (j = J_ICMPEXT_BIG /\ Z.of_nat (length m - (up + 8)) < attr6 m up)
  | XUB => False
  end.
Proof.
  intros e mem m lin mt l hs hs' p' up' pay' F L G PK (GP & NT & ID & US & UD & MT) (ID' & US' & UD') up q ER IN W W' P1 DO PE NP AT.
  pose proof (parse_view mem m lin mt l hs 58 F L G PK) as V.
  destruct (v_inner _ _ _ _ _ _ V eq_refl ER) as (hs2 & p2 & up2 & pay2 & IN2 & PL & LAST).
  pose proof IN as (_ & _ & C & _). pose proof IN2 as (_ & _ & C2 & _). destruct (chain_det _ _ _ _ _ _ C _ _ _ C2) as (-> & -> & ->).
  exact (e_all e m lin l mt hs F V ER W hs' p' up' pay2 IN2 PL LAST W' P1 DO NT ID US UD ID' US' UD' GP PE NP AT MT).
Qed.
Print Assumptions C77_64_partial.

(** Port Unreachable about a UDP packet, with an extension after the 128 octets of
    padded packet; the addresses and ports inside are translated the other way. *)
Definition ex_err6 : list Z :=
  [96;0;0;0;0;148;58;64] ++ ex_src6 ++ ex_dst6 ++ [1;4;141;34;16;0;0;0;96;0;0;0;0;13;17;60] ++ ex_dst6 ++ ex_src6 ++ [0;53;4;210;0;13;199;27;104;101;108;108;111] ++ repeat 0 75 ++ [32;0;204;228;0;8;1;1;9;9;9;9].
Lemma ex_err6_parts : packet6 ex_err6 [] 58 40 48 /\ inner6 ex_err6 48 [] 17 88 96.
Proof.
  split.
  - split; [cbn; lia|]. split; [apply c_upper; cbn; lia|]. split; [intros _; split; [discriminate|]; split; [reflexivity|intros; lia]|].
    split; [intros N; elim N; exact Logic.I|]. split; [vm_compute; lia|]. intros _. split; [vm_compute; exact Logic.I|]. split; [vm_compute; lia|].
    intros _. exists [], 17, 88%nat, 96%nat. repeat split; try (vm_compute; (reflexivity || discriminate || lia)). apply c_upper; cbn; lia.
  - repeat split; try (vm_compute; (reflexivity || discriminate || lia)). apply c_upper; cbn; lia.
Qed.
Example C77_64_example : pkt_init_ipv6 true ex_err6 40 = Good (Meta 0 ICMP 40 48, 96%nat) /\ env64_ok ex_env64 /\ inner64_ok ex_env64
  /\ Forall is_u8 ex_err6 /\ icmp6_error_type (oct ex_err6 40) /\ x_sum ex_env64 <> CS_PARTIAL /\ attr6 ex_err6 40 = 128
  /\ xlat64 ex_env64 96 ex_err6 (Meta 0 ICMP 40 48) = XOk
     ([69;0;0;168;0;7;0;0;63;1;142;244;198;51;100;5;192;0;2;33] ++ [3;3;233;85;0;32;0;0]
      ++ [69;0;0;33;0;8;0;0;60;17;146;106;192;0;2;33;198;51;100;5;0;53;238;73;0;13;225;40;104;101;108;108;111] ++ repeat 0 95
      ++ [32;0;204;228;0;8;1;1;9;9;9;9]).
Proof.
  split; [vm_compute; reflexivity|]. split; [exact ex_env64_ok|]. split; [unfold inner64_ok, is_u16, is_u32; cbn; lia|].
  split; [vm_compute; repeat constructor; discriminate|]. split; [vm_compute; tauto|]. split; [discriminate|]. split; [reflexivity|]. vm_compute. reflexivity.
Qed.

(** An ICMPv6 error behind an atomic fragment header. While Jool translates the
    packet inside, it thinks that the fragment header is at the same offset of that
    one: this is its UDP header, and the ICMPv4 error is about a fragment at 1232. *)
Definition frag_err6 : list Z :=
  [96;0;0;0;0;69;44;64] ++ ex_src6 ++ ex_dst6 ++ [58;0;0;0;0;0;0;9;1;4;157;121;0;0;0;0;96;0;0;0;0;13;17;60] ++ ex_dst6 ++ ex_src6 ++ [0;53;4;210;0;13;199;27;104;101;108;108;111].
Theorem C77_outer_fragment_refuted : exists e m mt hs up' pay' o, env64_ok e /\ inner64_ok e /\ Forall is_u8 m
  /\ pkt_init_ipv6 true m 40 = Good (mt, 104%nat) /\ packet6 m hs 58 (l4off mt) (payoff mt) /\ inner6 m (payoff mt) [] 17 up' pay'
  /\ xlat64 e 104 m mt = XOk o /\ fr4_offset o 28 = 1232.
Proof.
  exists ex_env64, frag_err6, (Meta 40 ICMP 48 56), [(44, 40%nat)], 96%nat, 104%nat. eexists.
  split; [exact ex_env64_ok|]. split; [unfold inner64_ok, is_u16, is_u32; cbn; lia|]. split; [vm_compute; repeat constructor; discriminate|].
  split; [vm_compute; reflexivity|]. assert (C : chain frag_err6 17 96 [] 17 96) by (apply c_upper; cbn; lia). split.
  { split; [cbn; lia|]. split; [apply (c_frag frag_err6 40 58); [cbn; lia|reflexivity|cbn; lia]|].
    split; [intros _; split; [discriminate|]; split; [reflexivity|intros; cbn in *; lia]|].
    split; [intros N; elim N; vm_compute; reflexivity|]. split; [vm_compute; lia|]. intros _. split; [split; vm_compute; (reflexivity || discriminate)|]. split; [vm_compute; lia|].
    intros _. exists [], 17, 96%nat, 104%nat. repeat split; try (vm_compute; (reflexivity || discriminate || lia)). exact C. }
  split; [repeat split; try (vm_compute; (reflexivity || discriminate || lia)); exact C|]. split; [vm_compute; reflexivity|]. vm_compute. reflexivity.
Qed.
Print Assumptions C77_outer_fragment_refuted.

(** An Echo Reply inside, cut short after its header. Its checksum is right, but not
    that of the ICMPv4 one: the length of the pseudoheader which Jool subtracts is
    that of what is left. *)
Definition echo_err6 : list Z :=
  [96;0;0;0;0;56;58;64] ++ ex_src6 ++ ex_dst6 ++ [1;3;147;202;0;0;0;0;96;0;0;0;0;24;58;60] ++ ex_dst6 ++ ex_src6 ++ [129;0;127;159;240;10;0;1].
Definition echo_rest : list Z := [104;101;108;108;111;104;101;108;108;111;1;2;3;4;5;6].
Theorem C77_echo_refuted : exists e m mt rest o, env64_ok e /\ inner64_ok e /\ Forall is_u8 m
  /\ pkt_init_ipv6 true m 40 = Good (mt, length m) /\ ok6 (field m 56 16) (field m 72 16) 58 (skipn 88 m ++ rest) /\ datagram (skipn 88 m ++ rest)
  /\ word m 52 = Z.of_nat (length (skipn 88 m ++ rest)) /\ oct m 88 = 129
  /\ xlat64 e (length m) m mt = XOk o /\ oct o 48 = 0 /\ ~ checks (skipn 48 o ++ rest).
Proof.
  exists noroute_env64, echo_err6, (Meta 0 ICMP 40 48), echo_rest. eexists.
  split; [unfold env64_ok; cbn; unfold is_u8, is_u16, is_u32; repeat split; try lia; intros; discriminate|].
  split; [unfold inner64_ok, is_u16, is_u32; cbn; lia|]. split; [vm_compute; repeat constructor; discriminate|].
  split; [vm_compute; reflexivity|]. split; [split; vm_compute; [discriminate|reflexivity]|].
  split; [split; [apply Forall_app; split; vm_compute; repeat constructor; discriminate|vm_compute; (reflexivity || discriminate)]|]. split; [vm_compute; reflexivity|]. split; [reflexivity|].
  split; [vm_compute; reflexivity|]. split; [reflexivity|]. intros [_ K]. vm_compute in K. discriminate K.
Qed.
Print Assumptions C77_echo_refuted.

(** ** IPv4 to IPv6 *)

(** True except of: an ICMPv4 error inside of an ICMPv4 error
    (C77_nested_refuted); protocol 58 and TCP data offsets less than 5 inside (as in
    C75); echoes inside whose two identifiers differ; options which are not well
    formed (C40); a length attribute which does not cover the IPv4 header
    (C41_46_refuted); packets longer than 65527 octets; checksums left to the
    hardware. As above, the checksum of an echo inside needs all of it. *)
Theorem C77_46_partial : forall e mem m lin mt l, Forall is_u8 m -> (lin <= length m)%nat ->
  pkt_init_ipv4 mem m lin = Good (mt, l) -> env46_ok e (l4off mt) -> is_u128 (y_src' e) -> is_u128 (y_dst' e) ->
  let up := l4off mt in let q := payoff mt in let p' := oct m (q + 9) in let up' := (q + ihl m q)%nat in
  oct m 9 = 1 -> icmp4_error_type (oct m up) -> (96 <= length (y_head e) + up')%nat ->
  (20 <= up)%nat -> options m up 20 -> Z.of_nat (length m) <= 65527 ->
  (p' = 1 -> ~ icmp4_error_type (oct m up')) -> p' <> 58 -> (p' = 6 -> 5 <= oct m (up' + 12) / 16) ->
  (p' = 1 -> forall a b, y_ports e = Some (a, b) -> a = b) -> y_sum e <> CS_PARTIAL ->
  (attr4 m up <> 0 -> Z.of_nat (ihl m q) <= attr4 m up) ->
  match xlat46 e l m mt with
  | XOk outs => exists o, outs = [o] /\ (y_hairpin e = false -> 1 < oct m 8)
      /\ (forall o, at_opt m up 20 o -> source_route m o -> exists o', (o' <= o)%nat /\ at_opt m up 20 o' /\ source_route m o' /\ ~ unexpired m o')
      /\ (y_sum e = CS_NONE -> checks (skipn up m))
      /\ (length o <= 1280)%nat /\ 1280 <= Z.min (y_mtu e) (y_lim e) /\ Forall is_u8 o
      /\ ipv6_header o 0 (tos_of (y_reset e) 0 (oct m 1)) (Z.of_nat (length o) - 40) 58 (oct m 8 - if y_hairpin e then 0 else 1) (y_src e) (y_dst e)
      /\ ok6 (y_src e) (y_dst e) 58 (skipn 40 o) /\ becomes rules46 (oct m up) (oct m (up + 1)) (oct o 40) (oct o 41)
      /\ rest46 (y_plateaus e) (y_inmtu e) (y_mtu e) (word m (q + 2)) (skipn up m) (skipn 40 o)
      /\ exists inn l3', inner_packet46 (rev_ports (y_ports e)) (tos_of (y_reset e) 0 (oct m (q + 1))) (y_src' e) (y_dst' e) m q l3' inn
         /\ carried46 m up (ihl m q) l3' inn o
  | XIcmp j r i => (j = J46_TTL /\ r = E_TTL /\ i = 0 /\ y_hairpin e = false /\ oct m 8 <= 1)
      \/ (j = J46_SRC_ROUTE /\ r = E_SRC_ROUTE /\ i = 0 /\ exists o, at_opt m up 20 o /\ source_route m o /\ unexpired m o)
  | XDrop j => (forall t c, ~ becomes rules46 (oct m up) (oct m (up + 1)) t c)
      \/ (oct m up = 12 /\ forall p, ~ points pointers46 (oct m (up + 4)) p)
      \/ (j = J46_BAD_MTU /\ Z.min (y_mtu e) (y_lim e) < 1280)
      \/ (j = J46_ICMP_CSUM /\ y_sum e = CS_NONE /\ ~ checks (skipn up m))
      \/ (j = J_UNKNOWN_ICMP4_TYPE /\ p' = 1 /\ forall t c, ~ becomes rules46 (oct m up') (oct m (up' + 1)) t c)
      \/ (j = J46_UDP_CSUM0 /\ p' = 17 /\ word m (up' + 6) = 0 /\ y_ports e = None /\ (fr4_more m q \/ y_amend e = false))
      \/ (j = J_ICMPEXT_BIG /\ Z.of_nat (length m - (up + 8)) < attr4 m up)
  | XUB => False
  end.
Proof.
  intros e mem m lin mt l F L G (GP & US & UD & _ & _ & _ & FH & _ & _ & FU) US' UD' up q p' up' PI ER HR UP OPT LEN NE P58 DO PE NP AT.
  pose proof (parse_view4 mem m lin mt l L G) as V. destruct (w_inner _ _ _ _ _ V PI ER) as (pay' & IN & PL).
  pose proof (f_all e m lin l mt (oct m 9) F V PI ER pay' IN PL NE P58 DO GP PE NP US UD US' UD' FH HR UP OPT FU LEN AT) as X. fold up q p' up' in X.
  destruct (xlat46 e l m mt) as [outs|j|j r i|]; [|exact X..].
  destruct X as (o & X1 & X2 & X3 & X4 & X5 & X6 & X7 & X8 & X9). exists o. repeat (split; [assumption|]). split; [|exact X9].
  unfold hops46, tc46 in X8. unfold tos_of. destruct (y_hairpin e); [rewrite Z.sub_0_r|]; exact X8.
Qed.
Print Assumptions C77_46_partial.

(** Time Exceeded about a UDP packet, with an extension. *)
Definition ex_err4 : list Z :=
  [69;0;0;168;171;205;0;0;64;1;226;45;192;0;2;33;198;51;100;5;11;0;225;88;0;32;0;0;69;0;0;33;171;205;0;0;60;17;230;164;198;51;100;5;192;0;2;33;238;73;0;53;0;13;225;40;104;101;108;108;111] ++ repeat 0 95 ++ [32;0;204;228;0;8;1;1;9;9;9;9].
Example C77_46_example : pkt_init_ipv4 true ex_err4 20 = Good (Meta 0 ICMP 20 28, 56%nat) /\ env46_ok ex_env46 20
  /\ Forall is_u8 ex_err4 /\ oct ex_err4 9 = 1 /\ icmp4_error_type (oct ex_err4 20) /\ options ex_err4 20 20 /\ attr4 ex_err4 20 = 128
  /\ oct ex_err4 37 = 17 /\ checks (skipn 20 ex_err4)
  /\ xlat46 ex_env46 56 ex_err4 (Meta 0 ICMP 20 28) = XOk
     [ [96;0;0;0; 0;164;58;63] ++ ex_dst6 ++ ex_src6 ++ [3;0;137;22;18;0;0;0]
       ++ [96;0;0;0;0;13;17;60] ++ repeat 0 32 ++ [4;210;0;53;0;13;182;251] ++ [104;101;108;108;111] ++ repeat 0 91 ++ [32;0;204;228;0;8;1;1;9;9;9;9] ].
Proof.
  split; [vm_compute; reflexivity|]. split.
  { destruct ex_env46_ok as (A1 & A2 & A3 & A4 & A5 & A6 & A7 & A8 & A9 & A10). repeat (split; [assumption|]). split; [cbn; lia|]. repeat (split; [assumption|]). cbn. lia. }
  split; [vm_compute; repeat constructor; discriminate|]. split; [reflexivity|]. split; [vm_compute; tauto|]. split; [apply o_none|]. split; [reflexivity|].
  split; [reflexivity|]. split; [split; vm_compute; [discriminate|reflexivity]|]. vm_compute. reflexivity.
Qed.

(** An ICMPv4 error inside of an ICMPv4 error: validate_inner4() lets it in, as
    opposed to validate_inner6(). There is no room for a third IPv6 header, and Jool
    writes it past the end of the sk_buff's data. *)
Definition nested_err4 : list Z :=
  [69;0;0;84;171;205;0;0;64;1;226;129;192;0;2;33;198;51;100;5;3;1;252;254;0;0;0;0;69;0;0;56;171;205;0;0;60;1;230;157;192;0;2;33;198;51;100;5;3;1;252;254;0;0;0;0;69;0;0;28;171;205;0;0;60;1;230;185;198;51;100;5;192;0;2;33;8;0;247;253;0;1;0;1].
Theorem C77_nested_refuted : exists e m mt l, env46_ok e 20 /\ (96 <= length (y_head e) + (payoff mt + ihl m (payoff mt)))%nat /\ Forall is_u8 m
  /\ pkt_init_ipv4 true m (length m) = Good (mt, l) /\ options m 20 20 /\ oct m 9 = 1 /\ checks (skipn 20 m) /\ xlat46 e l m mt = XUB.
Proof.
  exists ex_env46, nested_err4, (Meta 0 ICMP 20 28), (length nested_err4). split.
  { destruct ex_env46_ok as (A1 & A2 & A3 & A4 & A5 & A6 & A7 & A8 & A9 & A10). repeat (split; [assumption|]). split; [cbn; lia|]. repeat (split; [assumption|]). cbn. lia. }
  split; [vm_compute; lia|]. split; [vm_compute; repeat constructor; discriminate|]. split; [vm_compute; reflexivity|]. split; [apply o_none|]. split; [reflexivity|].
  split; [split; vm_compute; [discriminate|reflexivity]|]. vm_compute. reflexivity.
Qed.
Print Assumptions C77_nested_refuted.
