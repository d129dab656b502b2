(** C90: the stateless translator, from octets to octets. *)
Require Import Verif.Base Verif.Addr_Model Verif.Addr_Spec Verif.Addr_Properties Verif.Rtrie_Model Verif.Pool4_Model Verif.Eam_Model Verif.Eam_Spec
  Verif.Deny_Model Verif.Deny_Spec Verif.Siit_Model Verif.Siit_Spec Verif.Siit_Proofs Verif.Siit_Properties.
Require Import Verif.Csum_Model Verif.Csum_Spec Verif.Csum_Proofs Verif.Csum_Properties Verif.Pkt_Model Verif.Pkt_Spec Verif.Pkt_Proofs Verif.Pkt_Properties
  Verif.Hdr_Model Verif.Hdr_Spec Verif.Hdr_Proofs Verif.Hdr_Properties Verif.Ext_Model Verif.Xlat_Model Verif.Xlat_Spec Verif.Xlat_Proofs Verif.Xlat_Proofs46
  Verif.Xlat_Properties Verif.Trip_Spec Verif.Trip_Proofs Verif.E2e_Model Verif.E2e_Out Verif.E2e_Back Verif.S2e_Model Verif.S2e_Spec Verif.S2e_Proofs.
Local Ltac Zify.zify_post_hook ::= idtac.

(** What becomes of a packet from IPv6. True except of ICMP errors (below), hairpins
    (below), and of the packets C74 leaves out. *)
Theorem C90_6to4_partial : forall st c u u2 nm w w2 m lin hs p up pay, view st c -> wf_site c ->
  world64 w -> x_gso w = 0 -> x_flist w = [] -> Forall is_u8 m -> (lin <= length m)%nat -> packet6 m hs p up pay ->
  p <> 1 -> (p = 58 -> ~ icmp6_error_type (oct m up)) -> (p = 6 -> first_piece m hs -> 5 <= oct m (up + 12) / 16) ->
  (20 + (length m - up) <= Z.to_nat 65535)%nat ->
  let S6 := field m 8 16 in let D6 := field m 24 16 in
  (forall d4, ~ turns (s_mode st) c D6 d4) ->
  exists r, siit6 st u u2 nm w w2 true m lin = Ok r /\
    match r with
    | SPacket4 o => u_route u = true /\ exists s4 d4, xl64 c S6 s4 /\ xl64 c D6 d4 /\ became4 w (x_mtu w) (lin = length m) m hs p up s4 d4 o
    | SRefused drop _ => drop = false /\ ((forall s4 d4, ~ (xl64 c S6 s4 /\ xl64 c D6 d4)) \/ u_route u = false)
    | SFailed x => (exists s4 d4, xl64 c S6 s4 /\ xl64 c D6 d4) /\ excuse64 (x_mtu w) m hs p up x
    | _ => False
    end.
Proof.
  intros st c u u2 nm w w2 m lin hs p up pay V W Wo GS FL F L PK P1 NE DO LEN S6 D6 NT.
  destruct (C39_accepts m lin hs p up pay F L PK) as (mt & l & G & <- & <-).
  assert (L40 : (40 <= length m)%nat) by (destruct PK as (X & _); pose proof (word_u16 m 4 F) as Y; unfold is_u16 in Y; lia).
  pose proof (parse_view true m lin mt l hs p F L G PK) as V6'. pose proof (o_err_false m lin l mt hs p V6' NE) as E6.
  unfold siit6. rewrite G. unfold addresses64. rewrite E6, leg6_zero. fold S6 D6.
  destruct (legs64 st c u S6 D6 (oct m 7) V W) as (o & -> & X); [apply field_u128; [exact F|lia]|apply field_u128; [exact F|lia]|]. cbn [bind].
  destruct o as [[[s4 d4] h]|s|s]; [| |destruct X].
  2: { eexists. split; [reflexivity|]. split; [reflexivity|]. left. exact X. }
  destruct X as (X1 & X2 & U1 & U2 & Z & T). assert (h = false) by (destruct h; [elim (NT d4); apply T; reflexivity|reflexivity]). subst h.
  pose proof (inner64_none m lin l mt hs p F V6' P1 NE) as I.
  destruct (has_inner64 l m mt) as [b|j|j rr i|]; [|cbn [bind failed]|destruct I|destruct I].
  2: { eexists. split; [reflexivity|]. split; [eauto|]. destruct I as (I1 & -> & I2). right. right. right. auto. }
  subst b. cbn [bind]. unfold predict_route64. cbn [negb andb a_src].
  destruct (u_route u) eqn:R; cbn [negb].
  2: { eexists. split; [reflexivity|]. split; [reflexivity|]. right. reflexivity. }
  replace (s4 =? 0) with false by lia.
  pose proof (became_of w (Addrs s4 d4 None) false m true lin mt l hs p F L G PK Wo U1 U2 GS FL P1 NE DO LEN) as B. cbn [a_src a_dst] in B.
  destruct (xlat64 (senv64 w (Addrs s4 d4 None) false) l m mt) as [o|j|j rr i|]; [| | |destruct B]; (eexists; split; [reflexivity|]); [split; [reflexivity|]; exists s4, d4; auto|split; [eauto|exact B]..].
Qed.
Print Assumptions C90_6to4_partial.

(** What becomes of a packet from IPv4. True except of ICMP errors (below) and of the
    packets C75 leaves out. *)
Theorem C90_4to6_partial : forall st c u w m lin p up pay, view st c -> wf_site c ->
  world46 w up -> Forall is_u8 m -> (lin <= length m)%nat -> packet4 m p up pay ->
  p <> 58 -> (p = 1 -> ~ icmp4_error_type (oct m up)) -> (p = 6 -> fr4_offset m 0 = 0 -> 5 <= oct m (up + 12) / 16) ->
  (20 <= up)%nat -> options m up 20 -> fr4_offset m 0 + Z.of_nat (length m - up) <= 65515 ->
  let S4 := field m 12 4 in let D4 := field m 16 4 in
  exists r, siit4 st u w true m lin = Ok r /\
    match r with
    | SPackets6 outs => u_route u = true /\ 1 < oct m 8
        /\ exists s6 d6, s6 <> 0 /\ src46 (s_mode st) c S4 s6 /\ xl46 c D4 d6 /\ became6 w (y_sum w = CS_PARTIAL) (oct m 8 - 1) m up s6 d6 outs
    | SRefused drop _ => if drop then src46 (s_mode st) c S4 0 else (forall s6 d6, ~ (src46 (s_mode st) c S4 s6 /\ xl46 c D4 d6)) \/ u_route u = false
    | SFailed x => (exists s6 d6, src46 (s_mode st) c S4 s6 /\ xl46 c D4 d6) /\ excuse46 w false m up x
    | _ => False
    end.
Proof.
  intros st c u w m lin p up pay V W Wo F L PK P58 NE DO UP OPT OFF S4 D4.
  destruct (C62_accepts m lin p up pay L PK) as (mt & l & G & <- & <-). unfold siit4. rewrite G.
  pose proof (parse_view4 true m lin mt l L G) as V4'. assert (E : oct m 9 = p) by (destruct PK as (_ & X & _); congruence). rewrite E in V4'.
  destruct (became6_of (y_sum w = CS_PARTIAL) st c u w false (y_sum w) m lin l mt p V W F V4' Wo P58 NE DO UP OPT OFF) as (r & Er & X); [tauto|].
  exists r. split; [exact Er|]. rewrite orb_false_r in X. unfold src46. replace (sitef (negb (s_mode st =? EHM_SIMPLE)) c) with (if s_mode st =? EHM_SIMPLE then unmapped c else c) in X by (destruct (s_mode st =? EHM_SIMPLE); reflexivity).
  destruct r; try exact X. destruct X as (X1 & X2 & X3). split; [exact X1|]. split; [exact (X2 eq_refl)|exact X3].
Qed.
Print Assumptions C90_4to6_partial.

(** ** Hairpins *)

(** "Intrinsic" mode: what turns around inside leaves as IPv6. There is an IPv4 packet
    [o] in between, which nobody sees: its source gets its pool6 address, its
    destination the one of its mapping; the hop limit counts once. *)
Theorem C90_hairpin_partial : forall st c u u2 w w2 m lin hs p up pay d4, view st c -> wf_site c ->
  world64 w -> x_gso w = 0 -> x_flist w = [] -> world46 w2 20 -> Forall is_u8 m -> (lin <= length m)%nat -> packet6 m hs p up pay ->
  p <> 1 -> (p = 58 -> ~ icmp6_error_type (oct m up)) -> (p = 6 -> first_piece m hs -> 5 <= oct m (up + 12) / 16) ->
  off64 m hs + Z.of_nat (length m - up) <= 65515 ->
  let S6 := field m 8 16 in let D6 := field m 24 16 in
  turns (s_mode st) c D6 d4 ->
  exists r, siit6 st u u2 true w w2 true m lin = Ok r /\
    match r with
    | SPackets6 outs => u_route u2 = true /\ exists s4 o s6 d6, xl64 c S6 s4 /\ xl64 c D6 d4 /\ became4 w None (lin = length m) m hs p up s4 d4 o
        /\ s6 <> 0 /\ xl46 (unmapped c) s4 s6 /\ xl46 c d4 d6 /\ became6 w2 (x_sum w = CS_PARTIAL) (oct m 7 - 1) o 20 s6 d6 outs
    | SRefused drop _ => if drop then exists s4, xl64 c S6 s4 /\ xl46 (unmapped c) s4 0
        else (forall s4, ~ (xl64 c S6 s4 /\ xl64 c D6 d4)) \/ (exists s4, xl64 c S6 s4 /\ forall s6 d6, ~ (xl46 (unmapped c) s4 s6 /\ xl46 c d4 d6)) \/ u_route u2 = false
    | SFailed x => excuse64 None m hs p up x \/ exists s4 o, became4 w None (lin = length m) m hs p up s4 d4 o /\ excuse46 w2 true o 20 x
    | _ => False
    end.
Proof.
  intros st c u u2 w w2 m lin hs p up pay d4' V W Wo GS FL Wo2 F L PK P1 NE DO LEN S6 D6 T.
  destruct (C39_accepts m lin hs p up pay F L PK) as (mt & l & G & <- & <-).
  assert (L40 : (40 <= length m)%nat) by (destruct PK as (X & _); pose proof (word_u16 m 4 F) as Y; unfold is_u16 in Y; lia).
  assert (O0 : 0 <= off64 m hs) by (unfold off64; destruct (where_is 44 hs) as [f|]; [unfold fr_offset; pose proof (word_u16 m (f + 2) F) as Y; unfold is_u16 in Y; pose proof (Z.mod_le (word m (f + 2)) 8); lia|lia]).
  pose proof (parse_view true m lin mt l hs p F L G PK) as V6'. pose proof (o_err_false m lin l mt hs p V6' NE) as E6.
  assert (U6 : is_u128 D6) by (apply field_u128; [exact F|lia]).
  unfold siit6. rewrite G. unfold addresses64. rewrite E6, leg6_zero. fold S6 D6.
  destruct (legs64 st c u S6 D6 (oct m 7) V W) as (o & -> & X); [apply field_u128; [exact F|lia]|exact U6|]. cbn [bind].
  destruct o as [[[s4 d4] h]|s|s]; [| |destruct X].
  2: { eexists. split; [reflexivity|]. left. intros s4. apply X. }
  destruct X as (X1 & X2 & U1 & U2 & Z & TT).
  assert (d4 = d4'). { destruct X2 as (_ & h1 & A & _). destruct T as (_ & (q & B) & _). apply (stands_for_unique st c D6 _ _ _ _ V W U6 A B). }
  subst d4'. assert (h = true) by (apply TT; exact T). subst h.
  pose proof (inner64_none m lin l mt hs p F V6' P1 NE) as I.
  destruct (has_inner64 l m mt) as [b|j|j rr i|]; [|cbn [bind failed]|destruct I|destruct I].
  2: { eexists. split; [reflexivity|]. left. destruct I as (I1 & -> & I2). right. right. right. auto. }
  subst b. cbn [bind]. unfold predict_route64. cbn [negb andb a_src]. replace (s4 =? 0) with false by lia.
  pose proof (became_of w (Addrs s4 d4 None) true m true lin mt l hs p F L G PK Wo U1 U2 GS FL P1 NE DO ltac:(lia)) as B. cbn [a_src a_dst] in B.
  destruct (Xlat_Model.xlat64 (senv64 w (Addrs s4 d4 None) true) l m mt) as [o|j|j rr i|]; [| | |destruct B]; [|(eexists; split; [reflexivity|]; left; exact B)..].
  destruct (view_between w None (lin = length m) true m lin mt l hs p s4 d4 o F L G PK P1 NE B) as [V4' NE4].
  pose proof B as (_ & _ & LO & FO & _ & (big & _ & H) & SG & _). rewrite skipn_length in LO. destruct H as (H0 & _ & _ & _ & _ & _ & HM & HO & H8 & H9 & Hs & Hd & _). cbn [Nat.add] in H8, H9, Hs, Hd.
  assert (Q58 : proto64 p <> 58) by (unfold proto64; destruct (p =? 58) eqn:E; lia).
  destruct (became6_of (x_sum w = CS_PARTIAL) st c u2 w2 true (sum_out m mt (x_sum w)) o (length o - (length m - l)) (length o - (length m - l)) (meta_out mt) (proto64 p) V W FO V4' Wo2 Q58 NE4) as (r & Er & X).
  - intros E Z0. assert (E' : p = 6) by (unfold proto64 in E; destruct (p =? 58); [discriminate|exact E]).
    assert (FP : first_piece m hs) by (rewrite HO in Z0; unfold first_piece; unfold off64 in Z0; destruct (where_is 44 hs); auto).
    specialize (DO E' FP). pose proof PK as (_ & _ & TE & _). destruct (TE FP) as (T1 & _). destruct (T1 E') as [T2 _].
    destruct (SG FP) as (G6 & _). destruct (G6 E') as ((_ & Q & _) & _). rewrite skipn_length in Q. specialize (Q 12%nat ltac:(lia) ltac:(lia) ltac:(lia)).
    change (oct (skipn 20 o) 12 = oct (skipn (l4off mt) m) 12) in Q. rewrite !oct_skipn in Q. cbn [meta_out l4off Nat.add]. cbn [Nat.add] in Q. rewrite Q. exact DO.
  - cbn [meta_out l4off]. lia.
  - apply o_none.
  - cbn [meta_out l4off]. rewrite HO. replace (length o - 20)%nat with (length m - l4off mt)%nat by lia. exact LEN.
  - intros E. unfold sum_out. destruct V6' as [_ _ Vt Vu Vi _ _ _ _ _].
    assert (LP : l4p mt = TCP \/ l4p mt = UDP).
    { unfold proto64 in E. destruct (p =? 58) eqn:E58; [lia|]. destruct E as [E|E]; [left; apply Vt; exact E|right; apply Vu; exact E]. }
    destruct LP as [-> | ->]; destruct (x_sum w); split; intros Y; try discriminate Y; reflexivity.
  - rewrite Hs, Hd, H8, orb_true_r in X. cbn [negb sitef] in X. rewrite Z.sub_0_r in X. exists r. split; [exact Er|]. cbn [meta_out l4off] in X. destruct r; try exact X.
    + destruct X as (Y1 & _ & s6 & d6 & Y2 & Y3 & Y4 & Y5). split; [exact Y1|]. exists s4, o, s6, d6. auto 10.
    + destruct drop; [eauto|]. destruct X as [X|X]; [right; left; exists s4; auto|auto].
    + destruct X as [_ X]. right. exists s4, o. auto.
Qed.
Print Assumptions C90_hairpin_partial.

(** ** Conversations *)

(** [S6] and [D6] represent [s4] and [d4]. What [S6] sends to [D6] leaves as sent by [s4] to
    [d4], and nothing but the packet itself or the kernel's routes stop it. *)
Theorem C90_there_partial : forall st c u u2 nm w w2 m lin hs p up pay s4 h4 d4 hd, view st c -> wf_site c -> pool6_clear c ->
  world64 w -> x_gso w = 0 -> x_flist w = [] -> Forall is_u8 m -> (lin <= length m)%nat -> packet6 m hs p up pay ->
  p <> 1 -> (p = 58 -> ~ icmp6_error_type (oct m up)) -> (p = 6 -> first_piece m hs -> 5 <= oct m (up + 12) / 16) ->
  (20 + (length m - up) <= Z.to_nat 65535)%nat ->
  let S6 := field m 8 16 in let D6 := field m 24 16 in
  is_u32 s4 -> is_u32 d4 -> represents c S6 s4 h4 -> represents c D6 d4 hd ->
  S6 <> loopback6 -> D6 <> loopback6 -> permitted c s4 h4 -> permitted c d4 hd -> u_route u = true ->
  exists r, siit6 st u u2 nm w w2 true m lin = Ok r /\
    match r with
    | SPacket4 o => became4 w (x_mtu w) (lin = length m) m hs p up s4 d4 o
    | SFailed x => excuse64 (x_mtu w) m hs p up x
    | _ => False
    end.
Proof.
  intros st c u u2 nm w w2 m lin hs p up pay s4 h4 d4 hd V W C Wo GS FL F L PK P1 NE DO LEN S6 D6 Us Ud Rs Rd Ns Nd Ps Pd Ur.
  pose proof (rep_stands st c S6 s4 h4 V W C Us Rs) as Ss. pose proof (rep_stands st c D6 d4 hd V W C Ud Rd) as Sd. pose proof (rep_u128 _ _ _ _ Rs) as U1. pose proof (rep_u128 _ _ _ _ Rd) as U2.
  assert (XS : xl64 c S6 s4) by (split; [exact Ns|eauto]). assert (XD : xl64 c D6 d4) by (split; [exact Nd|eauto]).
  assert (QS : forall a, xl64 c S6 a -> a = s4) by (intros a (_ & h & A & _); apply (stands_for_unique st c S6 _ _ _ _ V W U1 A Ss)).
  assert (QD : forall a, xl64 c D6 a -> a = d4) by (intros a (_ & h & A & _); apply (stands_for_unique st c D6 _ _ _ _ V W U2 A Sd)).
  destruct (C90_6to4_partial st c u u2 nm w w2 m lin hs p up pay V W Wo GS FL F L PK P1 NE DO LEN) as (r & Er & X).
  { intros a (_ & (q & A) & e & He & I). fold D6 in A. destruct (stands_for_unique st c D6 _ _ _ _ V W U2 A Sd) as [-> <-]. inversion Rd as [|q' N]; subst. exact (N e He I). }
  exists r. split; [exact Er|]. destruct r; try exact X.
  - destruct X as (_ & a & b & A & B & X). apply QS in A. apply QD in B. subst a b. exact X.
  - destruct X as (_ & [X|X]); [exact (X _ _ (conj XS XD))|congruence].
  - exact (proj2 X).
Qed.
Print Assumptions C90_there_partial.

(** And what [d4] sends to [s4] arrives as sent by [D6] to [S6]. Not so in "simple" mode if
    it is a mapping which says what [D6] is (C70 is about that). *)
Theorem C90_back_partial : forall st c u w m lin p up pay S6 h6 D6 hd, view st c -> wf_site c ->
  world46 w up -> Forall is_u8 m -> (lin <= length m)%nat -> packet4 m p up pay ->
  p <> 58 -> (p = 1 -> ~ icmp4_error_type (oct m up)) -> (p = 6 -> fr4_offset m 0 = 0 -> 5 <= oct m (up + 12) / 16) ->
  (20 <= up)%nat -> options m up 20 -> fr4_offset m 0 + Z.of_nat (length m - up) <= 65515 ->
  let d4 := field m 12 4 in let s4 := field m 16 4 in
  represents c S6 s4 h6 -> represents c D6 d4 hd -> D6 <> 0 -> permitted c s4 h6 -> permitted c d4 hd ->
  (s_mode st = EHM_SIMPLE -> exists q, hd = ByPool6 q) -> u_route u = true ->
  exists r, siit4 st u w true m lin = Ok r /\
    match r with
    | SPackets6 outs => 1 < oct m 8 /\ became6 w (y_sum w = CS_PARTIAL) (oct m 8 - 1) m up D6 S6 outs
    | SFailed x => excuse46 w false m up x
    | _ => False
    end.
Proof.
  intros st c u w m lin p up pay S6 h6 D6 hd V W Wo F L PK P58 NE DO UP OPT OFF d4 s4 Rs Rd Z Ps Pd M Ur.
  assert (L20 : (20 <= length m)%nat) by (destruct PK; assumption).
  assert (Us : is_u32 s4) by (apply field_u32; [exact F|lia]). assert (Ud : is_u32 d4) by (apply field_u32; [exact F|lia]).
  assert (XS : xl46 c s4 S6) by (exists h6; auto).
  assert (RD : represents (sitef (negb (s_mode st =? EHM_SIMPLE)) c) D6 d4 hd).
  { destruct (s_mode st =? EHM_SIMPLE) eqn:E; [|exact Rd]. apply Z.eqb_eq in E. destruct (M E) as (q & ->). inversion Rd; subst. constructor; auto. }
  assert (ES : (if s_mode st =? EHM_SIMPLE then unmapped c else c) = sitef (negb (s_mode st =? EHM_SIMPLE)) c) by (destruct (s_mode st =? EHM_SIMPLE); reflexivity).
  assert (XD : src46 (s_mode st) c d4 D6).
  { unfold src46. rewrite ES. exists hd. split; [exact RD|]. destruct (s_mode st =? EHM_SIMPLE); exact Pd. }
  assert (QD : forall a, src46 (s_mode st) c d4 a -> a = D6).
  { intros a (h & A & _). rewrite ES in A. apply (rep_unique st c _ d4 _ _ _ _ V W Ud A RD). }
  assert (QS : forall a, xl46 c s4 a -> a = S6).
  { intros a (h & A & _). apply (represents_unique st c s4 _ _ _ _ V W Us A Rs). }
  destruct (C90_4to6_partial st c u w m lin p up pay V W Wo F L PK P58 NE DO UP OPT OFF) as (r & Er & X). fold d4 s4 in X.
  exists r. split; [exact Er|]. destruct r; try exact X.
  - destruct X as (_ & X0 & a & b & _ & A & B & X). apply QD in A. apply QS in B. subst a b. auto.
  - destruct drop; [apply QD in X; congruence|]. destruct X as [X|X]; [exact (X _ _ (conj XD XS))|congruence].
  - exact (proj2 X).
Qed.
Print Assumptions C90_back_partial.
