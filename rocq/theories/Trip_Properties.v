(** C76: IPv4 to IPv6 and back to IPv4 (464XLAT). *)
Require Import Verif.Base Verif.Pool4_Model Verif.Rtrie_Model Verif.Nat64_Model Verif.Csum_Model Verif.Csum_Spec Verif.Csum_Proofs
  Verif.Csum_Properties Verif.Pkt_Model Verif.Pkt_Spec Verif.Pkt_Proofs Verif.Pkt_Properties
  Verif.Hdr_Model Verif.Hdr_Spec Verif.Hdr_Proofs Verif.Hdr_Properties Verif.Ext_Model Verif.Xlat_Model Verif.Xlat_Spec Verif.Xlat_Proofs Verif.Xlat_Proofs46
  Verif.Xlat_Properties Verif.Trip_Spec Verif.Trip_Proofs.
Local Ltac Zify.zify_post_hook ::= Z.div_mod_to_equations.

(** The same exceptions as in C74 and C75; besides, protocols whose numbers are
    those of IPv6 extension headers. [outs4] are what the second translator makes of
    the packets [outs] of the first one. *)
Theorem C76_partial : forall e1 e2 mem m lin mt l outs outs4, Forall is_u8 m -> (lin <= length m)%nat ->
  pkt_init_ipv4 mem m lin = Good (mt, l) -> env46_ok e1 (l4off mt) -> env64_ok e2 ->
  let p := oct m 9 in let up := l4off mt in let seg := skipn up m in
  p <> 58 -> ~ In p [0; 43; 44; 60] -> (p = 1 -> ~ icmp4_error_type (oct m up)) ->
  (p = 6 -> fr4_offset m 0 = 0 -> 5 <= oct m (up + 12) / 16) ->
  (20 <= up)%nat -> options m up 20 -> fr4_offset m 0 + Z.of_nat (length seg) <= 65515 ->
  y_sum e1 <> CS_PARTIAL -> x_sum e2 <> CS_PARTIAL ->
  xlat46 e1 l m mt = XOk outs ->
  Forall2 (fun o o4 => exists mem2 lin2 mt2 l2, (lin2 <= length o)%nat /\ pkt_init_ipv6 mem2 o lin2 = Good (mt2, l2) /\ xlat64 e2 l2 o mt2 = XOk o4) outs outs4 ->
  exists seg', sent4 (kept (dscp_only (x_tos e2)) (tos_of (reset_tos (x_tos e2)) (new_tos (x_tos e2)) (tos_of (y_reset e1) 0 (oct m 1))))
       (oct m 8 - (if y_hairpin e1 then 0 else 1) - 1) (x_src e2) (x_dst e2) p (word m 4) (fr4_more m 0) (fr4_offset m 0) seg' outs4
    /\ (fr4_offset m 0 = 0 -> same_segment (last_ports (y_ports e1) (x_ports e2)) (field m 12 4) (field m 16 4) (x_src e2) (x_dst e2) p seg seg'
        /\ (p = 17 -> word seg 6 = 0 -> length outs = 1%nat -> ok4 (x_src e2) (x_dst e2) 17 seg'))
    /\ (fr4_offset m 0 <> 0 -> seg' = seg).
Proof.
  intros e1 e2 mem m lin mt l outs outs4 F L G OK1 OK2 p up seg N58 NX NE DO UP OPT OFF NP1 NP2 X1 TR.
  pose proof (C75_partial e1 mem m lin mt l F L G OK1 N58 NE DO UP OPT OFF) as X. cbv zeta in X. fold p up seg in X. rewrite X1 in X.
  destruct X as (_ & _ & FO & _ & _ & sg & SENT & S1 & S2).
  pose proof (off4_range m 0 F) as [OR OM].
  assert (DS : datagram seg) by (split; [apply skipn_u8; exact F|lia]).
  assert (ID : 0 <= word m 4 < 65536) by (pose proof (word_u16 m 4 F) as U; exact U).
  set (tc := tos_of (y_reset e1) 0 (oct m 1)) in *. set (hops := oct m 8 - (if y_hairpin e1 then 0 else 1)) in *.
  set (off := fr4_offset m 0) in *.
  (* the segment between *)
  assert (LS : length sg = length seg).
  { destruct (Z.eq_dec off 0) as [Z0|Z0]; [|rewrite (S2 Z0); reflexivity]. destruct (S1 Z0) as ((A6 & A17 & A1 & AO) & _).
    destruct (Z.eq_dec p 6) as [E|E]; [destruct (A6 E) as ((Q & _) & _); exact Q|]. destruct (Z.eq_dec p 17) as [E2|E2]; [destruct (A17 E2) as ((Q & _) & _); exact Q|].
    destruct (Z.eq_dec p 1) as [E3|E3]; [destruct (A1 E3) as (_ & (Q & _) & _); exact Q|]. rewrite (AO E E2 E3). reflexivity. }
  assert (SN : p = 1 -> off = 0 -> ~ icmp6_error_type (oct sg 0)).
  { intros E Z0. destruct (S1 Z0) as ((_ & _ & A1 & _) & _). destruct (A1 E) as (T1 & _).
    assert (NE' : ~ icmp4_error_type (oct seg 0)) by (unfold seg; rewrite oct_skipn, Nat.add_0_r; apply NE; exact E).
    destruct (echo46_types _ _ _ _ T1 NE') as [T _]. unfold icmp6_error_type. cbn. lia. }
  assert (SD : p = 6 -> off = 0 -> (20 <= length sg)%nat -> 5 <= oct sg 12 / 16).
  { intros E Z0 LL. destruct (S1 Z0) as ((A6 & _) & _). destruct (A6 E) as ((_ & Q & _) & _). unfold oct. rewrite Q by lia.
    change (nth 12 seg 0) with (oct seg 12). unfold seg. rewrite oct_skipn. apply DO; assumption. }
  (* what is known about the first packet of those which go out *)
  assert (FIRST : off = 0 -> forall a a' rest, sg = a ++ rest -> Forall is_u8 a -> Forall is_u8 rest -> (p = 6 -> (20 <= length a)%nat) -> (p = 17 -> (8 <= length a)%nat) -> (p = 1 -> rest = []) ->
    segment64 False (x_ports e2) (y_src e1) (y_dst e1) (x_src e2) (x_dst e2) (proto46 p) a a' -> (rest <> [] -> length outs <> 1%nat) ->
    same_segment (last_ports (y_ports e1) (x_ports e2)) (field m 12 4) (field m 16 4) (x_src e2) (x_dst e2) p seg (a' ++ rest)
     /\ (p = 17 -> word seg 6 = 0 -> length outs = 1%nat -> ok4 (x_src e2) (x_dst e2) 17 (a' ++ rest))).
  { intros Z0 a a' rst E FA FR L6 L17 L1 SG RN. destruct (S1 Z0) as (SG1 & OKU). rewrite E in SG1, OKU. split.
    - apply (segments_compose (y_sum e1 = CS_PARTIAL) False (y_ports e1) (x_ports e2) _ _ (y_src e1) (y_dst e1) _ _ p seg a a' rst DS FA FR NP1 (fun x => x) L6 L17).
      + intros P1. split; [exact (L1 P1)|]. unfold seg. rewrite oct_skipn, Nat.add_0_r. apply NE. exact P1.
      + exact N58.
      + congruence.
      + exact SG1.
      + exact SG.
    - intros P17 W0 LO. destruct SG as (_ & SG & _). unfold proto46 in SG. rewrite P17 in SG. cbn [Z.eqb Pos.eqb] in SG. destruct (SG eq_refl) as (_ & (_ & CK) & _).
      assert (R0 : rst = []) by (destruct rst; [reflexivity|elim (RN ltac:(discriminate) LO)]). subst rst. rewrite app_nil_r in *.
      specialize (CK (fun x => x) []). rewrite !app_nil_r in CK. apply CK; [|apply OKU; assumption].
      split; [exact FA|]. rewrite <- E, LS. apply DS. }
  assert (NX' : ~ ext_number p) by exact NX.
  destruct SENT as [(o & -> & Z0 & NM & H & SK)|[(o & -> & FGM & LO & E0 & H & FH)|SE]].
  - (* one packet *)
    inversion TR as [|? o4 ? r T1 T2]; subst. inversion T2; subst. inversion FO; subst.
    assert (LO : (40 <= length o)%nat).
    { destruct T1 as (m2 & l2 & mt2 & l2' & A & B & _). destruct (C39_parses m2 o l2 mt2 l2' ltac:(assumption) A B) as (hs & p2 & (Q1 & _) & _).
      pose proof (word_u16 o 4 ltac:(assumption)) as U. unfold is_u16 in U. lia. }
    rewrite skipn_length in LS.
    assert (T20 : p = 6 -> (20 <= length o - 40)%nat).
    { intros E. rewrite LS. destruct (parse_view4 mem m lin mt l L G) as [(_ & _ & _ & PT & _ & PL & _)]. destruct (PT Z0) as (PT6 & _). destruct (PT6 E) as [Q1 Q2].
      specialize (DO E Z0). unfold seg. rewrite skipn_length. fold up in PL, Q2. lia. }
    destruct (plain_back e2 p tc hops OK2 NP2 N58 NX' o o4 _ _ _ ltac:(assumption) T1 H ltac:(lia) LO) as (id & df & A & B & _ & C6 & C17).
    { intros E. rewrite <- (Nat.add_0_r 40), <- oct_skipn. exact (SN E Z0). }
    { intros E. rewrite <- oct_skipn. apply (SD E Z0). rewrite skipn_length. apply T20. exact E. }
    exists (skipn 20 o4). split.
    { left. exists o4, id, df. split; [reflexivity|]. split; [exact Z0|]. split; [exact NM|]. split; [exact A|reflexivity]. }
    split; [|intros Q; elim (Q Z0)]. intros _.
    pose proof (FIRST Z0 (skipn 40 o) (skipn 20 o4) [] ltac:(symmetry; apply app_nil_r) ltac:(apply skipn_u8; assumption) ltac:(constructor)) as Y.
    rewrite skipn_length in Y. specialize (Y C6 C17 ltac:(reflexivity) B ltac:(congruence)). rewrite app_nil_r in Y. exact Y.
  - (* an empty fragment *)
    inversion TR as [|? o4 ? r T1 T2]; subst. inversion T2; subst. inversion FO; subst. cbn [length] in LS.
    destruct (frag_back e2 p tc hops OK2 NP2 N58 NX' o o4 _ _ _ off (fr4_more m 0) (word m 4) ltac:(assumption) T1 H FH ID ltac:(lia) ltac:(lia)) as (A & _ & B & C & D & LA).
    { intros E Z0 _. exfalso. destruct (S1 Z0) as ((_ & _ & A1 & _) & _). destruct (A1 E) as (T & _). assert (NE' : ~ icmp4_error_type (oct seg 0)) by (unfold seg; rewrite oct_skipn, Nat.add_0_r; apply NE; exact E).
      destruct (echo46_types _ _ _ _ T NE') as [T' _]. cbn in T'. lia. }
    { intros; lia. }
    assert (SK : skipn 48 o = []) by (apply skipn_all2; lia).
    exists (skipn 20 o4). split; [right; apply s4_last; exact A|]. split.
    + intros Z0. destruct (B Z0) as (B1 & B2 & B3). rewrite SK in B1.
      pose proof (FIRST Z0 [] (skipn 20 o4) [] eq_refl ltac:(constructor) ltac:(constructor)) as Y. cbn [length] in Y.
      specialize (Y ltac:(intros E; specialize (B2 E); lia) ltac:(intros E; specialize (B3 E); lia) ltac:(reflexivity) B1 ltac:(congruence)). rewrite app_nil_r in Y. exact Y.
    + intros Z0. rewrite (C Z0), SK. apply S2. exact Z0.
  - (* fragments *)
    destruct (Z.eq_dec off 0) as [Z0|Z0].
    2: { exists sg. split; [right; eapply series_back; try eassumption; lia|]. split; [intros Q; elim (Z0 Q)|exact S2]. }
    pose proof SE as SDT. apply (series_data e2) in SDT.
    inversion SE as [off' o d (H & FH & SK & ND) E1 E2 E3|off' o d d' os (H & FH & SK & ND) SE' E1 E2 E3].
    + subst outs. inversion TR as [|? o4 ? r T1 T2]; subst. inversion T2; subst. inversion FO; subst. inversion SDT as [|? ? Q1 _]; subst.
      rewrite skipn_length in LS.
      destruct (frag_back e2 p tc hops OK2 NP2 N58 NX' o o4 _ _ _ off (fr4_more m 0) (word m 4) ltac:(assumption) T1 H FH ID ltac:(lia) ltac:(lia)) as (A & _ & B & C & D & LA).
      { intros E _ _. rewrite <- (Nat.add_0_r 48), <- oct_skipn. exact (SN E Z0). }
      { intros E _ LL. rewrite <- oct_skipn. apply (SD E Z0). rewrite skipn_length. lia. }
      exists (skipn 20 o4). split; [right; apply s4_last; exact A|]. split; [|intros Q; elim (Q Z0)]. intros _. destruct (B Z0) as (B1 & B2 & B3).
      pose proof (FIRST Z0 (skipn 48 o) (skipn 20 o4) [] ltac:(symmetry; apply app_nil_r) ltac:(apply skipn_u8; assumption) ltac:(constructor)) as Y.
      rewrite skipn_length in Y. specialize (Y B2 B3 ltac:(reflexivity) B1 ltac:(congruence)). rewrite app_nil_r in Y. exact Y.
    + subst outs. inversion TR as [|? o4 ? r T1 T2]; subst. inversion FO as [|? ? FO1 FO2]; subst. inversion SDT as [|? ? Q1 _]; subst.
      rewrite app_length in LS. rewrite skipn_length in LS. rewrite app_length, ?skipn_length in Q1.
      destruct (frag_back e2 p tc hops OK2 NP2 N58 NX' o o4 _ _ _ off True (word m 4) ltac:(assumption) T1 H FH ID ltac:(lia) ltac:(lia)) as (A & _ & B & C & D & LA).
      { intros E _ N. elim (N Logic.I). }
      { intros E _ LL. replace (oct o (48 + 12)) with (oct (skipn 48 o ++ d') 12) by (unfold oct; rewrite nth_app_l by (rewrite skipn_length; lia); apply oct_skipn).
        apply (SD E Z0). rewrite app_length, skipn_length. lia. }
      destruct (B Z0) as (B1 & B2 & B3).
      exists (skipn 20 o4 ++ d'). split.
      { right. apply s4_more; [exact A|]. rewrite LA. eapply series_back; try eassumption; rewrite ?skipn_length; lia. }
      split; [|intros Q; elim (Q Z0)]. intros _.
      pose proof SE' as U. apply series_u8 in U; [|assumption]. destruct U as [U1 U2].
      pose proof (FIRST Z0 (skipn 48 o) (skipn 20 o4) d' eq_refl ltac:(apply skipn_u8; assumption) U1) as Y. rewrite skipn_length in Y.
      apply Y; [exact B2|exact B3|intros E; destruct (D E) as [_ N]; elim (N Logic.I)|exact B1|].
      intros _. cbn [length]. destruct os; [elim U2; reflexivity|discriminate].

Qed.
Print Assumptions C76_partial.

(** A packet which goes out in one piece and is not a fragmented ICMP message is one
    the second translator accepts, however it arrives. (Of several, the theorem
    above says what becomes of them if they are accepted.) *)
Theorem C76_accepted_partial : forall e1 mem m lin mt l o lin2, Forall is_u8 m -> (lin <= length m)%nat ->
  pkt_init_ipv4 mem m lin = Good (mt, l) -> env46_ok e1 (l4off mt) ->
  let p := oct m 9 in let up := l4off mt in let seg := skipn up m in
  p <> 58 -> ~ In p [0; 43; 44; 60] -> (p = 1 -> ~ icmp4_error_type (oct m up)) ->
  (p = 6 -> fr4_offset m 0 = 0 -> 5 <= oct m (up + 12) / 16) ->
  (20 <= up)%nat -> options m up 20 -> fr4_offset m 0 + Z.of_nat (length seg) <= 65515 ->
  xlat46 e1 l m mt = XOk [o] -> (lin2 <= length o)%nat ->
  exists mt2 l2, pkt_init_ipv6 true o lin2 = Good (mt2, l2).
Proof.
  intros e1 mem m lin mt l o lin2 F L G OK1 p up seg N58 NX NE DO UP OPT OFF X1 L2.
  pose proof (C75_partial e1 mem m lin mt l F L G OK1 N58 NE DO UP OPT OFF) as X. cbv zeta in X. fold p up seg in X. rewrite X1 in X.
  destruct X as (_ & _ & FO & _ & _ & sg & SENT & S1 & S2). inversion FO as [|? ? FO1 _]; subst.
  assert (NX' : ~ ext_number (proto46 p)) by (unfold proto46; destruct (p =? 1) eqn:E; [unfold ext_number; cbn; lia|exact NX]).
  destruct (parse_view4 mem m lin mt l L G) as [(P1 & P2 & P3 & PT & PN & PL & PI)]. fold up p in PT, PN, PL, PI.
  assert (LSEG : length seg = (length m - up)%nat) by (unfold seg; apply skipn_length).
  (* the transport header is in [sg] as it was in [seg] *)
  assert (TE : fr4_offset m 0 = 0 -> length sg = length seg /\ (proto46 p = 6 -> (20 <= length sg)%nat /\ (4 * Z.to_nat (oct sg 12 / 16) <= length sg)%nat)
     /\ (proto46 p = 17 \/ proto46 p = 58 -> (8 <= length sg)%nat) /\ (proto46 p = 58 -> ~ icmp6_error_type (oct sg 0))).
  { intros Z0. destruct (PT Z0) as (PT6 & PT8 & _). destruct (S1 Z0) as ((A6 & A17 & A1 & AO) & _).
    assert (LS : length sg = length seg).
    { destruct (Z.eq_dec p 6) as [E|E]; [destruct (A6 E) as ((Q & _) & _); exact Q|]. destruct (Z.eq_dec p 17) as [E2|E2]; [destruct (A17 E2) as ((Q & _) & _); exact Q|].
      destruct (Z.eq_dec p 1) as [E3|E3]; [destruct (A1 E3) as (_ & (Q & _) & _); exact Q|]. rewrite (AO E E2 E3). reflexivity. }
    split; [exact LS|]. unfold proto46. split; [|split].
    - intros E. assert (E6 : p = 6) by (destruct (p =? 1) eqn:E'; lia). destruct (PT6 E6) as [Q1 Q2]. destruct (A6 E6) as ((_ & Q3 & _) & _).
      split; [lia|]. unfold oct. rewrite Q3 by lia. change (nth 12 seg 0) with (oct seg 12). unfold seg at 1. rewrite oct_skipn. lia.
    - intros E. assert (E8 : p = 17 \/ p = 1) by (destruct (p =? 1) eqn:E'; lia). rewrite (PT8 E8) in PL. lia.
    - intros E. assert (E1 : p = 1) by (destruct (p =? 1) eqn:E'; lia). destruct (A1 E1) as (T1 & _).
      assert (NE' : ~ icmp4_error_type (oct seg 0)) by (unfold seg; rewrite oct_skipn, Nat.add_0_r; apply NE; exact E1).
      destruct (echo46_types _ _ _ _ T1 NE') as [T _]. unfold icmp6_error_type. cbn. lia. }
  assert (WD : p = 1 -> fr4_offset m 0 = 0 /\ ~ fr4_more m 0) by (intros E; destruct (PI E) as (Q1 & Q2 & _); split; assumption).
  assert (P58' : proto46 p = 58 -> p = 1) by (unfold proto46; destruct (p =? 1) eqn:E'; lia).
  (* in general *)
  assert (GEN : forall hs k, (40 <= k)%nat -> (k <= length o)%nat -> skipn k o = sg -> Z.of_nat (length o) = 40 + word o 4 -> chain o (oct o 6) 40 hs (proto46 p) k ->
     (first_piece o hs <-> fr4_offset m 0 = 0) -> (p = 1 -> whole o hs) -> exists mt2 l2, pkt_init_ipv6 true o lin2 = Good (mt2, l2)).
  { intros hs k K1 K2 SK LO CH FP WH.
    assert (ON : forall i, oct o (k + i) = oct sg i) by (intros i; rewrite <- SK, oct_skipn; reflexivity).
    assert (LSG : length sg = (length o - k)%nat) by (rewrite <- SK; apply skipn_length).
    set (pay := if Z.eq_dec (fr4_offset m 0) 0 then (if proto46 p =? 6 then (k + 4 * Z.to_nat (oct sg 12 / 16))%nat else if (proto46 p =? 17) || (proto46 p =? 58) then (k + 8)%nat else k) else k).
    assert (PK : packet6 o hs (proto46 p) k pay).
    { split; [exact LO|]. split; [exact CH|]. split; [|split; [|split]].
      - intros Q. apply FP in Q. unfold pay. destruct (Z.eq_dec (fr4_offset m 0) 0) as [Z0|]; [|tauto]. destruct (TE Z0) as (_ & T6 & T8 & _).
        split; [|split].
        + intros E. rewrite E in *. cbn [Z.eqb Pos.eqb]. destruct (T6 eq_refl). rewrite ON. split; [lia|reflexivity].
        + intros E. destruct E as [E|E]; rewrite E; reflexivity.
        + intros E6 E17 E58. rewrite !(proj2 (Z.eqb_neq _ _)) by assumption. reflexivity.
      - intros Q. unfold pay. destruct (Z.eq_dec (fr4_offset m 0) 0) as [Z0|]; [elim Q; apply FP; exact Z0|reflexivity].
      - unfold pay. destruct (Z.eq_dec (fr4_offset m 0) 0) as [Z0|]; [|exact K2]. destruct (TE Z0) as (_ & T6 & T8 & _).
        destruct (proto46 p =? 6) eqn:E6; [destruct (T6 ltac:(lia)); lia|]. destruct ((proto46 p =? 17) || (proto46 p =? 58)) eqn:E8; [|exact K2].
        specialize (T8 ltac:(lia)). lia.
      - intros E. destruct (WD (P58' E)) as [Z0 _]. destruct (TE Z0) as (_ & _ & T8 & TN). split; [apply WH; apply P58'; exact E|].
        specialize (T8 (or_intror E)). split; [lia|]. rewrite <- (Nat.add_0_r k), ON. intros Q. elim (TN E Q). }
    destruct (C39_accepts o lin2 hs (proto46 p) k pay FO1 L2 PK) as (mt2 & l2 & Q & _). exists mt2, l2. exact Q. }
  destruct SENT as [(o' & E & Z0 & NM & H & SK)|[(o' & E & FGM & LO & E0 & H & FH)|SE]].
  - injection E as <-. destruct H as (_ & _ & _ & _ & H1 & H2 & _). cbn [Nat.add] in *.
    pose proof (word_u16 o 4 FO1) as U. unfold is_u16 in U.
    apply (GEN [] 40%nat); [lia|lia|exact SK|lia|rewrite H2; apply c_upper; exact NX'|cbn; tauto|intros; exact Logic.I].
  - injection E as <-. destruct H as (_ & _ & _ & _ & H1 & H2 & _). destruct FH as (F0 & _ & F1 & F2 & _). cbn [Nat.add] in *.
    apply (GEN [(44, 40%nat)] 48%nat); [lia|lia|rewrite E0; apply skipn_all2; lia|lia|rewrite H2; apply c_frag; [lia|symmetry; exact F0|exact NX']| |].
    + unfold first_piece. cbn [where_is find fst Z.eqb Pos.eqb option_map snd]. rewrite F1. tauto.
    + intros E1. destruct (WD E1) as [W1 W2]. exfalso. tauto.
  - inversion SE as [off' o' d (H & FH & SK & ND) E1 E2 E3|off' o' d d' os (H & FH & SK & ND) SE' E1 E2 E3]; subst.
    2: { inversion SE'. }
    destruct H as (_ & _ & _ & _ & H1 & H2 & _). destruct FH as (F0 & _ & F1 & F2 & _). cbn [Nat.add] in *.
    assert (Q : length (skipn 48 o) <> 0%nat) by (intros E; apply ND; apply length_zero_iff_nil; exact E). rewrite skipn_length in Q.
    apply (GEN [(44, 40%nat)] 48%nat); [lia|lia|reflexivity|lia|rewrite H2; apply c_frag; [lia|symmetry; exact F0|exact NX']| |].
    + unfold first_piece. cbn [where_is find fst Z.eqb Pos.eqb option_map snd]. rewrite F1. tauto.
    + intros E1. destruct (WD E1) as [W1 W2]. unfold whole. cbn [where_is find fst Z.eqb Pos.eqb option_map snd]. rewrite F1, F2. tauto.
Qed.
Print Assumptions C76_accepted_partial.

(** The packet of C75's example, which goes out in two fragments, and comes out of
    the second translator in two. The checksum is right all the way. *)
Definition trip_env64 : env64 := Env64 true (TosConf false 0 false) 7 8 3221226017 3325256709 0 0 None (Some 1500) (Some 1500) CS_NONE [] 0.
Definition trip_run : option (list (list Z)) :=
  match xlat46 ex_env46 32 ex_udp4 (Meta 0 UDP 24 32) with
  | XOk outs =>
      fold_right (fun o acc =>
        match acc, pkt_init_ipv6 true o 40 with
        | Some os, Good (mt2, l2) => match xlat64 trip_env64 l2 o mt2 with XOk o4 => Some (o4 :: os) | _ => None end
        | _, _ => None
        end) (Some []) outs
  | _ => None
  end.
Example C76_example : env64_ok trip_env64 /\ ~ In (oct ex_udp4 9) [0; 43; 44; 60] /\ match trip_run with
  | Some [a; b] => firstn 28 a = [69;4;4;228; 171;205;32;0; 62;17;191;221; 192;0;2;33; 198;51;100;5] ++ [0;53;4;210; 5;140;162;19]
      /\ firstn 20 b = [69;4;0;208; 171;205;0;154; 62;17;227;87; 192;0;2;33; 198;51;100;5]
      /\ ok4 (field ex_udp4 12 4) (field ex_udp4 16 4) 17 (skipn 20 a ++ skipn 20 b)
  | _ => False
  end.
Proof.
  split. { unfold env64_ok. cbn. unfold is_u8, is_u16, is_u32. repeat split; try lia. all: injection H as <-; lia. }
  split; [vm_compute; lia|]. vm_compute. repeat split; discriminate.
Qed.

(** IPv4 protocol 44 becomes an IPv6 fragment header: what arrives is not what was
    sent but (here) the piece at 8 of some UDP datagram. *)
Definition p44_packet : list Z := [69;0;0;36; 171;205;0;0; 64;44;0;0; 192;0;2;33; 198;51;100;5] ++ [17;0;0;9;0;0;0;1] ++ repeat 3 8.
Theorem C76_refuted : exists e1 e2 m mt l o mt2 l2 o4, env46_ok e1 24 /\ env64_ok e2 /\ Forall is_u8 m /\ options m 20 20
  /\ pkt_init_ipv4 true m (length m) = Good (mt, l) /\ xlat46 e1 l m mt = XOk [o]
  /\ pkt_init_ipv6 true o (length o) = Good (mt2, l2) /\ xlat64 e2 l2 o mt2 = XOk o4
  /\ oct m 9 = 44 /\ oct o4 9 = 17 /\ fr4_offset m 0 = 0 /\ fr4_offset o4 0 = 8.
Proof.
  exists ex_env46, trip_env64, p44_packet. eexists _, _, _, _, _, _. split; [exact ex_env46_ok|].
  split. { unfold env64_ok. cbn. unfold is_u8, is_u16, is_u32. repeat split; try lia. all: injection H as <-; lia. }
  split; [vm_compute; repeat constructor; discriminate|]. split; [apply o_none|]. split; [vm_compute; reflexivity|]. split; [vm_compute; reflexivity|].
  split; [vm_compute; reflexivity|]. split; [vm_compute; reflexivity|]. repeat split; vm_compute; reflexivity.
Qed.
Print Assumptions C76_refuted.
