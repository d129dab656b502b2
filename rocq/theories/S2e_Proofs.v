(** The steps of the stateless translator on octets. *)
Require Import Verif.Base Verif.Addr_Model Verif.Addr_Spec Verif.Addr_Properties Verif.Rtrie_Model Verif.Pool4_Model Verif.Eam_Model Verif.Eam_Spec
  Verif.Deny_Model Verif.Deny_Spec Verif.Siit_Model Verif.Siit_Spec Verif.Siit_Proofs Verif.Siit_Properties.
Require Import Verif.Csum_Model Verif.Csum_Spec Verif.Csum_Proofs Verif.Csum_Properties Verif.Pkt_Model Verif.Pkt_Spec Verif.Pkt_Proofs Verif.Pkt_Properties
  Verif.Hdr_Model Verif.Hdr_Spec Verif.Hdr_Proofs Verif.Hdr_Properties Verif.Ext_Model Verif.Xlat_Model Verif.Xlat_Spec Verif.Xlat_Proofs Verif.Xlat_Proofs46
  Verif.Xlat_Properties Verif.Trip_Spec Verif.Trip_Proofs Verif.E2e_Model Verif.E2e_Out Verif.E2e_Back Verif.S2e_Model Verif.S2e_Spec.
Local Ltac Zify.zify_post_hook ::= idtac.

(** ** Fields are of their types *)
Lemma field_u128 m q : Forall is_u8 m -> (q + 16 <= length m)%nat -> is_u128 (field m q 16).
Proof.
  intros F L. unfold field, is_u128. change (2^128) with (256 ^ 16). pose proof (be_of_bound (firstn 16 (skipn q m))) as X.
  rewrite firstn_length, skipn_length, Nat.min_l in X by lia. apply X. apply firstn_u8. apply skipn_u8. exact F.
Qed.
Lemma field_u32 m q : Forall is_u8 m -> (q + 4 <= length m)%nat -> is_u32 (field m q 4).
Proof.
  intros F L. unfold field, is_u32. change (2^32) with (256 ^ 4). pose proof (be_of_bound (firstn 4 (skipn q m))) as X.
  rewrite firstn_length, skipn_length, Nat.min_l in X by lia. apply X. apply firstn_u8. apply skipn_u8. exact F.
Qed.

(** ** Addresses *)

Lemma legs64 : forall st c u S D hop, view st c -> wf_site c -> is_u128 S -> is_u128 D ->
  exists o, translate_addrs64_siit st u false (Leg S D false hop) false = Ok o /\
    match o with
    | Siit_Model.Continue (s4, d4, h) => xl64 c S s4 /\ xl64 c D d4 /\ is_u32 s4 /\ is_u32 d4 /\ s4 <> 0 /\ (h = true <-> turns (s_mode st) c D d4)
    | Siit_Model.Untranslatable _ => forall s4 d4, ~ (xl64 c S s4 /\ xl64 c D d4)
    | Siit_Model.Drop _ => False
    end.
Proof.
  intros st c u S D hop V W HS HD. unfold translate_addrs64_siit. cbn [l_src l_dst l_err l_hop negb].
  destruct (one64 st c D true V W HD) as (vd & -> & Xd). cbn [bind].
  destruct vd as [d4 md| | |]; [| | |destruct Xd].
  - destruct Xd as (Nd & Ud & hd & -> & Sd & Pd). specialize (Pd eq_refl).
    destruct (one64 st c S true V W HS) as (vs & -> & Xs). cbn [bind]. destruct vs as [s4 ms| | |]; [| | |destruct Xs].
    + destruct Xs as (Ns & Us & hs & -> & Ss & Ps). specialize (Ps eq_refl).
      unfold mark_hairpin64. cbn [negb andb l_err]. destruct (contains4 st c d4 V Ud) as (b & Eb & B).
      assert (X1 : xl64 c S s4) by (split; [exact Ns|]; eauto). assert (X2 : xl64 c D d4) by (split; [exact Nd|]; eauto).
      assert (Z4 : s4 <> 0) by (intros ->; destruct Ps as [Ps _]; apply Ps; left; lia).
      assert (TU : forall h, (h = true <-> s_mode st = EHM_INTRINSIC /\ is_6052 (meth hd) = true /\ b = true) -> (h = true <-> turns (s_mode st) c D d4)).
      { intros h ->. unfold turns. split.
        - intros (A & A2 & A3). split; [exact A|]. split; [|apply B; exact A3]. destruct hd as [p|e]; [eauto|discriminate A2].
        - intros (A & (p & A2) & A3). split; [exact A|]. split; [|apply B; exact A3]. destruct (stands_for_unique st c D d4 hd d4 (ByPool6 p) V W HD Sd A2) as [_ ->]. reflexivity. }
      destruct (s_mode st =? EHM_INTRINSIC) eqn:EM.
      * apply Z.eqb_eq in EM. destruct (is_6052 (meth hd)) eqn:E6; cbn [bind].
        -- rewrite Eb. cbn [bind]. eexists. split; [reflexivity|]. do 5 (split; [assumption|]). apply TU. destruct b; split; auto; try discriminate. intros (_ & _ & A). exact A.
        -- eexists. split; [reflexivity|]. do 5 (split; [assumption|]). apply TU. split; [discriminate|]. intros (_ & A & _). exact A.
      * apply Z.eqb_neq in EM. cbn [bind]. eexists. split; [reflexivity|]. do 5 (split; [assumption|]). apply TU. split; [discriminate|]. tauto.
    + eexists. split; [reflexivity|]. intros s d [(_ & h & A & _) _]. exact (proj2 Xs _ _ A).
    + eexists. split; [reflexivity|]. intros s d [(N & h & A & A2) _]. destruct Xs as [Xs|(_ & a & h' & A3 & A4)]; [exact (N Xs)|].
      destruct (stands_for_unique st c S s h a h' V W HS A A3) as [-> ->]. exact (A4 A2).
  - eexists. split; [reflexivity|]. intros s d [_ (_ & h & A & _)]. exact (proj2 Xd _ _ A).
  - eexists. split; [reflexivity|]. intros s d [_ (N & h & A & A2)]. destruct Xd as [Xd|(_ & a & h' & A3 & A4)]; [exact (N Xd)|].
    destruct (stands_for_unique st c D d h a h' V W HD A A3) as [-> ->]. exact (A4 A2).
Qed.

(** [eam]: whether the source may be translated by the mappings *)
Lemma legs46_any : forall st c u s d hop idst hp, view st c -> wf_site c -> is_u32 s -> is_u32 d ->
  exists o, translate_addrs46_siit st u false (Leg s d false hop) idst hp = Ok o /\
    match o with
    | Siit_Model.Continue (s6, d6) => xl46 (sitef (negb ((s_mode st =? EHM_SIMPLE) || hp)) c) s s6 /\ xl46 c d d6 /\ is_u128 s6 /\ is_u128 d6
    | Siit_Model.Untranslatable _ => forall s6 d6, ~ (xl46 (sitef (negb ((s_mode st =? EHM_SIMPLE) || hp)) c) s s6 /\ xl46 c d d6)
    | Siit_Model.Drop _ => False
    end.
Proof.
  intros st c u s d hop idst hp V W Hs Hd. unfold translate_addrs46_siit, disable_dst_eam, disable_src_eam. cbn [l_src l_dst l_err l_hop negb]. rewrite andb_false_r, orb_false_r.
  cbn [negb]. set (sim := (s_mode st =? EHM_SIMPLE) || hp).
  assert (PM : forall b a h, permitted (sitef b c) a h <-> permitted c a h) by (intros [] a h; reflexivity).
  destruct (one46 st c d true true V W Hd) as (vd & Ed & Xd). rewrite Ed. cbn [bind].
  assert (Fd : forall d6, xl46 c d d6 -> exists h, vd = Siit_Model.XContinue d6 (meth h)).
  { intros d6 (h & R & P). rewrite (xl46_inv st c _ _ true h V W Hd R P) in Ed. injection Ed as <-. eauto. }
  destruct vd as [d6 md| | |]; [| | |destruct Xd].
  - destruct Xd as (Ud & hd & -> & Rd & _ & Pd). specialize (Pd eq_refl).
    replace (negb (if negb sim then false else true)) with (negb sim) by (destruct sim; reflexivity).
    destruct (one46 st c s (negb sim) true V W Hs) as (vs & Es & Xs). rewrite Es. cbn [bind].
    destruct vs as [s6 ms| | |]; [| | |destruct Xs].
    + destruct Xs as (Us & hs & -> & Rs & _ & Ps). specialize (Ps eq_refl). eexists. split; [reflexivity|]. split; [exists hs; split; [exact Rs|apply PM; exact Ps]|]. split; [exists hd; auto|]. auto.
    + eexists. split; [reflexivity|]. intros a b [(h & R & _) _]. exact (proj1 Xs _ _ R).
    + eexists. split; [reflexivity|]. intros a b [(h & R & P) _]. apply PM in P. rewrite (xl46_inv st c _ _ (negb sim) h V W Hs R P) in Es. discriminate.
  - eexists. split; [reflexivity|]. intros a b [_ X]. apply Fd in X. destruct X. discriminate.
  - eexists. split; [reflexivity|]. intros a b [_ X]. apply Fd in X. destruct X. discriminate.
Qed.
Lemma legs46 : forall st c u s d hop idst, view st c -> wf_site c -> is_u32 s -> is_u32 d ->
  exists o, translate_addrs46_siit st u false (Leg s d false hop) idst false = Ok o /\
    match o with
    | Siit_Model.Continue (s6, d6) => src46 (s_mode st) c s s6 /\ xl46 c d d6 /\ is_u128 s6 /\ is_u128 d6
    | Siit_Model.Untranslatable _ => forall s6 d6, ~ (src46 (s_mode st) c s s6 /\ xl46 c d d6)
    | Siit_Model.Drop _ => False
    end.
Proof.
  intros st c u s d hop idst V W Hs Hd. destruct (legs46_any st c u s d hop idst false V W Hs Hd) as (o & E & X). exists o. split; [exact E|]. rewrite orb_false_r in X. unfold src46.
  destruct (s_mode st =? EHM_SIMPLE); exact X.
Qed.

(** ** What is inside *)
Lemma inner64_none : forall m lin l mt hs p, Forall is_u8 m -> view6 m lin l mt hs p -> p <> 1 -> (p = 58 -> ~ icmp6_error_type (oct m (l4off mt))) ->
  match has_inner64 l m mt with
  | XOk b => b = false
  | XDrop j => p = 58 /\ j = J_UNKNOWN_ICMP6_TYPE /\ forall t c, ~ becomes rules64 (oct m (l4off mt)) (oct m (l4off mt + 1)) t c
  | _ => False end.
Proof.
  intros m lin l mt hs p F V P1 NE. unfold has_inner64. rewrite (o_proto m lin l mt hs p V). cbn [xbind].
  destruct (proto64 p =? 1) eqn:E; [|reflexivity]. assert (P : p = 58) by (unfold proto64 in E; destruct (p =? 58) eqn:E2; lia).
  pose proof V as [PK _ _ _ _ _ Vp Vl _ _]. destruct PK as (_ & _ & T & _ & _ & Wh). destruct (Wh P) as (W1 & W2 & _).
  assert (FP : first_piece m hs) by (unfold whole in W1; unfold first_piece; destruct (where_is 44 hs); tauto).
  destruct (T FP) as (_ & T2 & _). rewrite T2 in Vp by auto.
  rewrite direct_ok by lia. cbn [of_res xbind]. change byte with oct. rewrite type64_applied by (apply oct_u8; exact F).
  destruct (applied rules64 (oct m (l4off mt)) (oct m (l4off mt + 1))) as [[t c]|] eqn:A; cbn [xbind].
  - assert (T3 : oct m (l4off mt) = 128 \/ oct m (l4off mt) = 129).
    { eapply (echo_type64 m mt (oct m (l4off mt)) (oct m (l4off mt + 1)) (t, c)); [|exact (NE P)]. rewrite type64_applied by (apply oct_u8; exact F). rewrite A. reflexivity. }
    destruct T3 as [-> | ->]; reflexivity.
  - split; [exact P|]. split; [reflexivity|]. apply applied_none; [exact disjoint64|exact A].
Qed.
Lemma inner46_none : forall m lin l mt p, Forall is_u8 m -> view4 m lin l mt p -> p <> 58 -> (p = 1 -> ~ icmp4_error_type (oct m (l4off mt))) ->
  match has_inner46 l m mt with
  | XOk b => b = false
  | XDrop j => p = 1 /\ j = J_UNKNOWN_ICMP4_TYPE /\ forall t c, ~ becomes rules46 (oct m (l4off mt)) (oct m (l4off mt + 1)) t c
  | _ => False end.
Proof.
  intros m lin l mt p F V P58 NE. unfold has_inner46. change (byte m 9) with (oct m 9). rewrite <- (a_p m lin l mt p V).
  unfold xlat_nexthdr. destruct (p =? 1) eqn:E1; [|replace (p =? 58) with false by lia; reflexivity]. apply Z.eqb_eq in E1. cbn [Z.eqb Pos.eqb].
  pose proof V as [PK _ _ _ _ _ Vp Vl _]. destruct PK as (_ & _ & _ & T & _ & _ & Wh). destruct (Wh E1) as (W1 & _ & W2 & _).
  destruct (T W1) as (_ & T2 & _). rewrite T2 in Vp by auto.
  rewrite direct_ok by lia. cbn [of_res xbind]. change byte with oct. rewrite type46_applied by (apply oct_u8; exact F).
  destruct (applied rules46 (oct m (l4off mt)) (oct m (l4off mt + 1))) as [[t c]|] eqn:A; cbn [xbind].
  - assert (T3 : oct m (l4off mt) = 8 \/ oct m (l4off mt) = 0).
    { eapply (echo_type46 m mt p P58 (oct m (l4off mt)) (oct m (l4off mt + 1)) (t, c)); [|exact (NE E1)]. rewrite type46_applied by (apply oct_u8; exact F). rewrite A. reflexivity. }
    destruct T3 as [-> | ->]; reflexivity.
  - split; [exact E1|]. split; [reflexivity|]. apply applied_none; [exact disjoint46|exact A].
Qed.

Lemma leg6_zero m e : leg6_at m 0 e = Leg (field m 8 16) (field m 24 16) e (oct m 7). Proof. reflexivity. Qed.
Lemma leg4_zero m e : (20 <= length m)%nat -> leg4_at m 0 e = Leg (field m 12 4) (field m 16 4) e (oct m 8).
Proof. intros L. unfold leg4_at. cbn [Nat.add]. rewrite !be32_field by lia. reflexivity. Qed.

Lemma senv64_ok w r hp : world64 w -> is_u32 (a_src r) -> is_u32 (a_dst r) -> env64_ok (senv64 w r hp).
Proof.
  intros (A & B & C) D E. unfold env64_ok, senv64. cbn [x_ports x_tos x_id x_src x_dst x_mtu]. split; [exact Logic.I|]. do 4 (split; [assumption|]).
  intros mtu. destruct hp; [discriminate|apply C].
Qed.
Lemma senv46_ok w hp sum r up : world46 w up -> is_u128 (a_src r) -> is_u128 (a_dst r) -> env46_ok (senv46 w hp sum r) up.
Proof. intros (A & B & C & D & E & G & H) U1 U2. unfold env46_ok, senv46. cbn. split; [exact Logic.I|]. auto 12. Qed.

(** ** The rest of the packet *)
Lemma became_of : forall w r hp m mem lin mt l hs p, Forall is_u8 m -> (lin <= length m)%nat -> pkt_init_ipv6 mem m lin = Good (mt, l) ->
  packet6 m hs p (l4off mt) (payoff mt) -> world64 w -> is_u32 (a_src r) -> is_u32 (a_dst r) -> x_gso w = 0 -> x_flist w = [] ->
  p <> 1 -> (p = 58 -> ~ icmp6_error_type (oct m (l4off mt))) ->
  (p = 6 -> first_piece m hs -> 5 <= oct m (l4off mt + 12) / 16) -> (20 + (length m - l4off mt) <= Z.to_nat 65535)%nat ->
  match xlat64 (senv64 w r hp) l m mt with
  | XOk o => became4 w (if hp then None else x_mtu w) (lin = length m) m hs p (l4off mt) (a_src r) (a_dst r) o
  | XUB => False
  | x => excuse64 (if hp then None else x_mtu w) m hs p (l4off mt) (failed x)
  end.
Proof.
  intros w r hp m mem lin mt l hs p F L G PK W U1 U2 GS FL P1 NE DO LEN.
  pose proof (C74_partial (senv64 w r hp) mem m lin mt l hs p F L G PK (senv64_ok w r hp W U1 U2) P1 NE DO LEN) as X. cbv zeta in X. rewrite skipn_length in X.
  destruct (xlat64 (senv64 w r hp) l m mt) as [o|j|j rr i|]; [| | |exact X]; cbn [senv64 x_sum x_ports x_src x_dst x_mtu x_tos x_id x_gso x_flist] in X.
  - destruct X as (X1 & X2 & X3 & X4 & XM & (big & XB & X5) & X6). unfold became4. rewrite skipn_length. split; [exact X1|]. split; [exact X2|]. split; [exact X3|]. split; [exact X4|]. split; [intros E; apply XM; auto; pose proof (v_lin _ _ _ _ _ _ (parse_view mem m lin mt l hs p F L G PK)); lia|]. split; [exists big; split; [exact (XB GS FL)|exact X5]|]. exact X6.
  - unfold excuse64. cbn [failed]. rewrite !oct_skipn, Nat.add_0_r in X. destruct X as [(-> & X)|(-> & t & X & X2)]; [right; right; right; auto|right; right; left]. exists t. split; [exact X|]. split; [exact (X2 GS FL)|]. right. reflexivity.
  - unfold excuse64. cbn [failed]. destruct X as [(-> & -> & -> & X)|[(-> & -> & q & X1 & X2 & ->)|(-> & -> & X1 & t & X2 & -> & X3)]]; [left; auto|right; left; eauto|right; right; left]. exists t. split; [exact X2|]. split; [exact (X3 GS)|]. left. auto.
Qed.


Lemma echo64_only t c t' c' : becomes rules64 t c t' c' -> ~ icmp6_error_type t -> (t = 128 /\ t' = 8 \/ t = 129 /\ t' = 0).
Proof.
  intros (lo & hi & n & I & _ & E) N. unfold rules64, icmp6_error_type in *.
  cbn [In] in I. repeat (destruct I as [I|I]; [injection I as <- <- <- <- <-; first [lia|elim N; cbn; tauto]|]). elim I.
Qed.

(** What is between the two translations of a hairpin packet is a packet. *)
Lemma view_between : forall w mtu lb mem m lin mt l hs p s4 d4 o, Forall is_u8 m -> (lin <= length m)%nat -> pkt_init_ipv6 mem m lin = Good (mt, l) ->
  packet6 m hs p (l4off mt) (payoff mt) -> p <> 1 -> (p = 58 -> ~ icmp6_error_type (oct m (l4off mt))) ->
  became4 w mtu lb m hs p (l4off mt) s4 d4 o ->
  let l' := (length o - (length m - l))%nat in view4 o l' l' (meta_out mt) (proto64 p) /\ (proto64 p = 1 -> ~ icmp4_error_type (oct o 20)).
Proof.
  intros w mtu lb mem m lin mt l hs p s4 d4 o F L G PK P1 NE (_ & _ & LO & FO & _ & (big & _ & H) & SG & SG') l'. rewrite skipn_length in LO.
  pose proof (parse_view mem m lin mt l hs p F L G PK) as V. pose proof (o_pay m lin l mt hs p F V) as [[U1 U2] U3].
  destruct V as [_ Vf Vt Vu Vi Vl Vp Vll _ _]. destruct PK as (_ & _ & T & T' & PL & W).
  assert (EL : l' = (20 + (l - l4off mt))%nat) by (unfold l'; lia).
  destruct H as (H0 & _ & _ & _ & _ & _ & HM & HO & _ & H9 & _).
  assert (FO0 : forall x : unit, first_piece m hs <-> fr4_offset o 0 = 0) by (intros _; rewrite HO; unfold first_piece, off64; destruct (where_is 44 hs); tauto).
  assert (P6 : forall x : unit, proto64 p = 6 <-> p = 6) by (intros _; unfold proto64; destruct (p =? 58) eqn:E; lia).
  assert (P17 : forall x : unit, proto64 p = 17 <-> p = 17) by (intros _; unfold proto64; destruct (p =? 58) eqn:E; lia).
  assert (P58 : forall x : unit, proto64 p = 1 <-> p = 58) by (intros _; unfold proto64; destruct (p =? 58) eqn:E; lia).
  assert (N4 : proto64 p = 1 -> ~ icmp4_error_type (oct o 20)).
  { intros E C. apply (P58 tt) in E. destruct (W E) as (W1 & W2 & _). assert (FP : first_piece m hs) by (unfold whole in W1; unfold first_piece; destruct (where_is 44 hs); tauto).
    destruct (SG FP) as (_ & _ & G58 & _). destruct (G58 E) as (B & _). rewrite !oct_skipn, !Nat.add_0_r in B.
    destruct (echo64_only _ _ _ _ B (NE E)) as [[_ X]|[_ X]]; rewrite X in C; unfold icmp4_error_type in C; cbn in C; lia. }
  split; [|exact N4].
  constructor; unfold meta_out; cbn [l4off payoff l4p fhdr].
  - split; [lia|]. split; [symmetry; exact H9|]. split; [unfold ihl; rewrite H0; reflexivity|]. split; [|split; [|split; [lia|]]].
    + intros Z. apply (FO0 tt) in Z. destruct (T Z) as (T1 & T2 & T3). split; [|split].
      * intros E. apply (P6 tt) in E. destruct (T1 E) as [A B]. split; [lia|]. destruct (SG Z) as (G6 & _). destruct (G6 E) as ((_ & Q & _) & _).
        rewrite skipn_length in Q. specialize (Q 12%nat ltac:(lia) ltac:(lia) ltac:(lia)). change (oct (skipn 20 o) 12 = oct (skipn (l4off mt) m) 12) in Q. rewrite !oct_skipn in Q. rewrite Q. clear -B. lia.
      * intros E. rewrite T2 by (destruct E as [E|E]; [apply (P17 tt) in E|apply (P58 tt) in E]; auto). lia.
      * intros A B C. rewrite T3 by (rewrite <- ?(P6 tt), <- ?(P17 tt), <- ?(P58 tt); assumption). lia.
    + intros Z. rewrite T' by (rewrite (FO0 tt); exact Z). lia.
    + intros E. pose proof (N4 E) as N. apply (P58 tt) in E. destruct (W E) as (W1 & W2 & _). split; [apply (FO0 tt); unfold whole in W1; unfold first_piece; destruct (where_is 44 hs); tauto|]. split; [|split; [lia|]].
      * intros M. apply HM in M. unfold more64 in M. unfold whole in W1. destruct (where_is 44 hs); [tauto|exact M].
      * intros C. elim N. exact C.
  - reflexivity.
  - rewrite Vt. symmetry. exact (P6 tt).
  - rewrite Vu. symmetry. exact (P17 tt).
  - rewrite Vi. symmetry. exact (P58 tt).
  - lia.
  - lia.
  - lia.
  - intros E C. elim (N4 E C).
Qed.

Lemma segment46_partial (P Q : Prop) ports s4 d4 s6 d6 p seg seg' : (p = 6 \/ p = 17 -> (P <-> Q)) ->
  segment46 P ports s4 d4 s6 d6 p seg seg' -> segment46 Q ports s4 d4 s6 d6 p seg seg'.
Proof. intros E (A & B & C & D). split; [intros X; specialize (A X); tauto|]. split; [intros X; specialize (B X); tauto|]. auto. Qed.

(** The second half, from a parsed packet on *)
Lemma became6_of : forall (P : Prop) st c u w hp sum m lin l mt p, view st c -> wf_site c -> Forall is_u8 m -> view4 m lin l mt p -> world46 w (l4off mt) ->
  p <> 58 -> (p = 1 -> ~ icmp4_error_type (oct m (l4off mt))) -> (p = 6 -> fr4_offset m 0 = 0 -> 5 <= oct m (l4off mt + 12) / 16) ->
  (20 <= l4off mt)%nat -> options m (l4off mt) 20 -> fr4_offset m 0 + Z.of_nat (length m - l4off mt) <= 65515 -> (p = 6 \/ p = 17 -> (sum = CS_PARTIAL <-> P)) ->
  let c' := sitef (negb ((s_mode st =? EHM_SIMPLE) || hp)) c in
  exists r, translating46 st u w hp sum l m mt = Ok r /\
    match r with
    | SPackets6 outs => u_route u = true /\ (hp = false -> 1 < oct m 8)
        /\ exists s6 d6, s6 <> 0 /\ xl46 c' (field m 12 4) s6 /\ xl46 c (field m 16 4) d6 /\ became6 w P (oct m 8 - if hp then 0 else 1) m (l4off mt) s6 d6 outs
    | SRefused drop _ => if drop then xl46 c' (field m 12 4) 0 else (forall s6 d6, ~ (xl46 c' (field m 12 4) s6 /\ xl46 c (field m 16 4) d6)) \/ u_route u = false
    | SFailed x => (exists s6 d6, xl46 c' (field m 12 4) s6 /\ xl46 c (field m 16 4) d6) /\ excuse46 w hp m (l4off mt) x
    | _ => False
    end.
Proof.
  intros P st c u w hp sum m lin l mt p V W F V4' Wo P58 NE DO UP OPT OFF PE c'. pose proof (a_p m lin l mt p V4') as EP.
  assert (L20 : (20 <= length m)%nat) by (destruct V4' as [(X & _) _ _ _ _ _ _ _ _]; exact X).
  pose proof (a_err_false m lin l mt p V4' NE) as E4.
  unfold translating46, addresses46. rewrite E4. cbn [andb bind]. rewrite leg4_zero by exact L20.
  destruct (legs46_any st c u (field m 12 4) (field m 16 4) (oct m 8) (be32 m (payoff mt + 16)) hp V W) as (o & -> & X); [apply field_u32; [exact F|lia]|apply field_u32; [exact F|lia]|]. cbn [bind]. fold c' in X.
  destruct o as [[s6 d6]|s|s]; [| |destruct X].
  2: { eexists. split; [reflexivity|]. left. exact X. }
  destruct X as (X1 & X2 & U1 & U2).
  pose proof (inner46_none m lin l mt p F V4' P58 NE) as I.
  destruct (has_inner46 l m mt) as [b|j|j rr i|]; [|cbn [bind failed]|destruct I|destruct I].
  2: { eexists. split; [reflexivity|]. split; [eauto|]. destruct I as (I1 & -> & I2). right. right. right. left. rewrite <- EP. auto. }
  subst b. cbn [bind]. unfold predict_route46. cbn [a_src k_outer l_err].
  destruct (u_route u) eqn:R; cbn [negb].
  2: { eexists. split; [reflexivity|]. right. reflexivity. }
  destruct (s6 =? 0) eqn:Z6.
  { apply Z.eqb_eq in Z6. eexists. split; [reflexivity|]. rewrite <- Z6. exact X1. }
  pose proof (senv46_ok w hp sum (Addrs s6 d6 None) (l4off mt) Wo U1 U2) as EO. destruct EO as (GP & US & UD & GS & FL & HR & FH & FR & FRU & FU).
  assert (SG : datagram (skipn (l4off mt) m)) by (pose proof (off4_range m 0 F); split; [apply skipn_u8; exact F|rewrite skipn_length; lia]).
  pose proof (a_all (senv46 w hp sum (Addrs s6 d6 None)) m lin l mt p F V4' P58 NE DO SG GP US UD GS FL HR FH FR FRU OPT UP FU ltac:(rewrite skipn_length; exact OFF)) as Y.
  destruct (Xlat_Model.xlat46 (senv46 w hp sum (Addrs s6 d6 None)) l m mt) as [outs|j|j rr i|]; [| | |destruct Y]; (eexists; split; [reflexivity|]); cbn [failed].
  - destruct Y as (Y1 & Y2 & Y3 & Y4 & Y5 & seg' & Y6 & Y7 & Y8). split; [reflexivity|]. split; [exact Y1|]. exists s6, d6. split; [lia|]. split; [exact X1|]. split; [exact X2|].
    split; [exact Y2|]. split; [exact Y3|]. split; [exact Y4|]. split; [exact Y5|]. exists seg'. rewrite <- EP. split; [|split; [|exact Y8]].
    + unfold sent46, hops46, tc46 in Y6. cbn [senv46 y_hairpin y_reset y_src y_dst a_src a_dst] in Y6. unfold tos_of. destruct hp; [rewrite Z.sub_0_r|]; exact Y6.
    + intros Z. destruct (Y7 Z) as [A B]. split; [|exact B]. cbn [senv46 y_sum y_ports y_src y_dst a_src a_dst] in A. eapply segment46_partial; [|exact A]. exact PE.
  - split; [eauto|]. unfold excuse46. rewrite <- EP. destruct Y as [(-> & Y)|[(-> & Y)|(-> & Y1 & Y2 & _ & Y3)]]; [do 3 right; left; auto|do 4 right; left; auto|do 5 right]. rewrite word_skipn in Y2. auto.
  - split; [eauto|]. unfold excuse46. rewrite <- EP. cbn [senv46 y_hairpin y_mtu] in Y. rewrite skipn_length in Y. destruct Y as [(-> & -> & -> & Y)|[(-> & -> & -> & Y)|(-> & -> & Y1 & Y2 & Y3)]]; [left; auto|right; left; auto|do 2 right; left].
    exists i. split; [reflexivity|]. split; [exact Y1|]. split; [exact Y2|]. unfold l3_len46 in Y3. split; [destruct (fragmented4 m 0); lia|].
    intros O M. destruct (fragmented4 m 0) eqn:FG; [apply frag4_iff in FG; tauto|lia].
Qed.
